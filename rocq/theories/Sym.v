(** A verified symbolic executor for micro-operation programs.

    Every location is described by an integer polynomial over atoms together
    with an interval.  An atom is either the initial content of a location or
    a quotient (carry, borrow, high half, shifted value) introduced by the
    execution.  Soundness ([exec_sound]) says that any concrete run from a
    store meeting the preconditions is described by the symbolic result for
    some valuation of the atoms which extends the initial store. *)
From Coq Require Import ZArith List Bool Lia PArith.
From Verif Require Import Uop Poly.
Import ListNotations.
Open Scope Z_scope.

Record sval := SV { sp : poly; slo : Z; shi : Z }.
(** The value of a carry location is [± floor (cS / cM)]. *)
Record chain := CH { cneg : bool; cS : poly; cM : Z }.
Record sst := SST {
  smap : PositiveMap.t sval;
  sch : PositiveMap.t chain;
  snext : atom;
  srng : PositiveMap.t (Z * Z);
  scon : list (poly * Z * atom)   (* (P, m, a): the atom a is floor (P / m) *)
}.

(** ** Intervals *)
Definition imul (x y : Z * Z) : Z * Z :=
  let '(a, b) := x in let '(c, d) := y in
  if (0 <=? a) && (0 <=? c) then (a * c, b * d)
  else (Z.min (Z.min (a*c) (a*d)) (Z.min (b*c) (b*d)),
        Z.max (Z.max (a*c) (a*d)) (Z.max (b*c) (b*d))).
Definition inI (x : Z * Z) (v : Z) : Prop := fst x <= v <= snd x.

Lemma imul_sound x y u v : inI x u -> inI y v -> inI (imul x y) (u * v).
Proof.
  destruct x as [a b], y as [c d]. unfold inI, imul; cbn [fst snd]. intros Hu Hv.
  destruct ((0 <=? a) && (0 <=? c)) eqn:E; cbn [fst snd].
  - apply andb_prop in E as [E1 E2]. apply Z.leb_le in E1, E2. nia.
  - split.
    + destruct (Z.le_gt_cases 0 u); destruct (Z.le_gt_cases 0 v); destruct (Z.le_gt_cases 0 c);
      destruct (Z.le_gt_cases 0 a); destruct (Z.le_gt_cases 0 b); destruct (Z.le_gt_cases 0 d); nia.
    + destruct (Z.le_gt_cases 0 u); destruct (Z.le_gt_cases 0 v); destruct (Z.le_gt_cases 0 c);
      destruct (Z.le_gt_cases 0 a); destruct (Z.le_gt_cases 0 b); destruct (Z.le_gt_cases 0 d); nia.
Qed.

Definition rng_ok (rng : PositiveMap.t (Z * Z)) (r : atom -> Z) : Prop :=
  forall a x, PositiveMap.find a rng = Some x -> inI x (r a).

Fixpoint mint (rng : PositiveMap.t (Z * Z)) (m : mono) : option (Z * Z) :=
  match m with
  | [] => Some (1, 1)
  | a :: m => match PositiveMap.find a rng, mint rng m with
              | Some x, Some y => Some (imul x y)
              | _, _ => None
              end
  end.
Fixpoint pint (rng : PositiveMap.t (Z * Z)) (p : poly) : option (Z * Z) :=
  match p with
  | [] => Some (0, 0)
  | (m, c) :: p =>
      match mint rng m, pint rng p with
      | Some (l, h), Some (l', h') =>
          if 0 <=? c then Some (c * l + l', c * h + h') else Some (c * h + l', c * l + h')
      | _, _ => None
      end
  end.

Lemma mint_sound rng r m x : rng_ok rng r -> mint rng m = Some x -> inI x (mono_eval r m).
Proof.
  intro R; revert x; induction m as [|a m IH]; cbn [mint]; intros x H.
  - injection H as <-. unfold inI, mono_eval; cbn. lia.
  - destruct (PositiveMap.find a rng) eqn:E; try discriminate.
    destruct (mint rng m) eqn:E'; try discriminate. injection H as <-.
    change (mono_eval r (a :: m)) with (r a * mono_eval r m).
    apply imul_sound; auto.
Qed.
Lemma pint_sound rng r p x : rng_ok rng r -> pint rng p = Some x -> inI x (peval r p).
Proof.
  intro R; revert x; induction p as [|[m c] p IH]; cbn [pint]; intros x H.
  - injection H as <-. unfold inI; cbn; lia.
  - destruct (mint rng m) as [[l h]|] eqn:E; try discriminate.
    destruct (pint rng p) as [[l' h']|] eqn:E'; try discriminate.
    apply (mint_sound _ r) in E; auto. specialize (IH _ eq_refl).
    rewrite peval_cons. unfold term_eval; cbn [fst snd]. unfold inI in *; cbn [fst snd] in *.
    destruct (0 <=? c) eqn:C; injection H as <-; cbn [fst snd].
    + apply Z.leb_le in C. nia.
    + apply Z.leb_gt in C. nia.
Qed.

(** Intersect an interval with the one computed from the polynomial. *)
Definition tight (rng : PositiveMap.t (Z * Z)) (p : poly) (x : Z * Z) : Z * Z :=
  match pint rng p with
  | Some (l, h) => (Z.max (fst x) l, Z.min (snd x) h)
  | None => x
  end.
Lemma tight_sound rng r p x : rng_ok rng r -> inI x (peval r p) -> inI (tight rng p x) (peval r p).
Proof.
  intros R H. unfold tight. destruct (pint rng p) as [[l h]|] eqn:E; auto.
  apply (pint_sound _ r) in E; auto. unfold inI in *; cbn [fst snd] in *. lia.
Qed.

(** ** Quotients *)

(** Polynomials [c + k*s] in a single atom ranging over {0,1}. *)
Definition bitform (rng : PositiveMap.t (Z * Z)) (p : poly) : option (Z * Z * atom) :=
  let chk c k s := match PositiveMap.find s rng with
                   | Some (l, h) => if (0 <=? l) && (h <=? 1) then Some (c, k, s) else None
                   | None => None
                   end in
  match p with
  | [([s], k)] => chk 0 k s
  | [([], c); ([s], k)] => chk c k s
  | _ => None
  end.
Lemma bitform_sound rng r p c k s : rng_ok rng r -> bitform rng p = Some (c, k, s) ->
  peval r p = c + k * r s /\ 0 <= r s <= 1.
Proof.
  intros R.
  assert (K : forall c' k' s', match PositiveMap.find s' rng with
                   | Some (l, h) => if (0 <=? l) && (h <=? 1) then Some (c', k', s') else None
                   | None => None end = Some (c, k, s) -> c' = c /\ k' = k /\ s' = s /\ 0 <= r s <= 1).
  { intros c' k' s'. destruct (PositiveMap.find s' rng) as [[l h]|] eqn:E; try discriminate.
    destruct ((0 <=? l) && (h <=? 1)) eqn:B; try discriminate. intro H; injection H as -> -> ->.
    apply andb_prop in B as [B1 B2]. apply Z.leb_le in B1, B2.
    apply R in E. unfold inI in E; cbn in E. repeat split; lia. }
  unfold bitform. destruct p as [|[[|a m] c1] p]; try discriminate.
  - destruct p as [|[[|a [|]] k1] [|]]; try discriminate. intro H. apply K in H as (-> & -> & -> & H).
    split; auto. unfold peval, term_eval, mono_eval; cbn [fold_right fst snd]. ring.
  - destruct m; try discriminate. destruct p; try discriminate.
    intro H. apply K in H as (<- & -> & -> & H). split; auto.
    unfold peval, term_eval, mono_eval; cbn [fold_right fst snd]. ring.
Qed.

Fixpoint memo (con : list (poly * Z * atom)) (P : poly) (m : Z) : option atom :=
  match con with
  | [] => None
  | (P', m', a) :: con => if (m' =? m) && peqb P' P then Some a else memo con P m
  end.

(** Cancel the common factor of the coefficients and the modulus. *)
Definition content (m : Z) (P : poly) : Z := fold_right (fun t g => Z.gcd (snd t) g) m P.
Definition qnorm (P : poly) (m : Z) : poly * Z :=
  let g := content m P in
  if (1 <? g) && pdvd g P && (m mod g =? 0) then (pdiv g P, m / g) else (P, m).

(** A quotient of a quotient is a quotient of the original polynomial. *)
Fixpoint source (con : list (poly * Z * atom)) (a : atom) : option (poly * Z) :=
  match con with
  | [] => None
  | (P, m, b) :: con => if Pos.eqb a b then Some (P, m) else source con a
  end.
Definition flatq (con : list (poly * Z * atom)) (x : poly * Z) : poly * Z :=
  match x with
  | ([([a], 1)], m) => match source con a with Some (P, m') => (P, m' * m) | None => x end
  | _ => x
  end.

(** [newq s P m (ql,qh)]: a polynomial for floor (P/m), known to lie in [ql,qh]. *)
Definition newq (s : sst) (P : poly) (m : Z) (q : Z * Z) : sst * sval :=
  if fst q =? snd q then (s, SV (pconst (fst q)) (fst q) (fst q))
  else match bitform (srng s) P with
       | Some (c, k, a) =>
           let q0 := c / m in let q1 := (c + k) / m in
           (s, SV (padd (pconst q0) (pscale (q1 - q0) (patom a))) (fst q) (snd q))
       | None =>
           let '(P, m) := flatq (scon s) (qnorm P m) in
           match memo (scon s) P m with
           | Some a => (s, SV (patom a) (fst q) (snd q))
           | None =>
               let a := snext s in
               (SST (smap s) (sch s) (Pos.succ a) (PositiveMap.add a q (srng s))
                    ((P, m, a) :: scon s),
                SV (patom a) (fst q) (snd q))
           end
       end.

(** ** Invariant *)
Definition sv_ok (n : atom) (r : atom -> Z) (v : Z) (x : sval) : Prop :=
  v = peval r (sp x) /\ slo x <= v <= shi x /\ poly_lt n (sp x).

Definition con_ok (n : atom) (r : atom -> Z) (c : poly * Z * atom) : Prop :=
  let '(P, m, a) := c in 0 < m /\ poly_lt n P /\ (a < n)%positive /\ r a = peval r P / m.

Definition ch_ok (n : atom) (r : atom -> Z) (v : Z) (c : chain) : Prop :=
  0 < cM c /\ poly_lt n (cS c) /\
  v = (if cneg c then - (peval r (cS c) / cM c) else peval r (cS c) / cM c).

Record Inv (r : atom -> Z) (s : sst) (st : store) : Prop := {
  inv_rng : rng_ok (srng s) r;
  inv_con : Forall (con_ok (snext s) r) (scon s);
  inv_map : forall l x, PositiveMap.find l (smap s) = Some x -> sv_ok (snext s) r (get st l) x;
  inv_ch : forall l c, PositiveMap.find l (sch s) = Some c -> ch_ok (snext s) r (get st l) c
}.

Definition ext (n : atom) (r r' : atom -> Z) : Prop := forall a, (a < n)%positive -> r a = r' a.

Lemma sv_ok_ext n n' r r' v x : ext n r r' -> (n <= n')%positive -> sv_ok n r v x -> sv_ok n' r' v x.
Proof.
  intros E Hn (H1 & H2 & H3). repeat split; try tauto.
  - rewrite H1. eapply peval_ext; eauto.
  - eapply poly_lt_weaken; eauto.
Qed.
Lemma con_ok_ext n n' r r' c : ext n r r' -> (n <= n')%positive -> con_ok n r c -> con_ok n' r' c.
Proof.
  destruct c as [[P m] a]. intros E Hn (H1 & H2 & H3 & H4). repeat split; auto.
  - eapply poly_lt_weaken; eauto.
  - lia.
  - rewrite <- (E a H3), H4. f_equal. eapply peval_ext; eauto.
Qed.
Lemma ch_ok_ext n n' r r' v c : ext n r r' -> (n <= n')%positive -> ch_ok n r v c -> ch_ok n' r' v c.
Proof.
  intros E Hn (H1 & H2 & H3). repeat split; auto.
  - eapply poly_lt_weaken; eauto.
  - rewrite H3. rewrite (peval_ext n r r' (cS c)); auto.
Qed.

Lemma memo_sound n r con P m a : Forall (con_ok n r) con -> memo con P m = Some a ->
  r a = peval r P / m /\ (a < n)%positive.
Proof.
  induction 1 as [|[[P' m'] a'] con H _ IH]; cbn [memo]; try discriminate.
  destruct ((m' =? m) && peqb P' P) eqn:E; auto.
  intro X; injection X as ->. apply andb_prop in E as [E1 E2].
  apply Z.eqb_eq in E1. apply peqb_eq in E2. subst.
  destruct H as (_ & _ & H & H'). auto.
Qed.

Lemma poly_lt_pdiv n m p : poly_lt n p -> poly_lt n (pdiv m p).
Proof. induction 1; cbn [pdiv map]; constructor; auto. Qed.
Lemma qnorm_sound n r P m P' m' : 0 < m -> poly_lt n P -> qnorm P m = (P', m') ->
  0 < m' /\ poly_lt n P' /\ peval r P' / m' = peval r P / m.
Proof.
  intros Hm HP. unfold qnorm. set (g := content m P).
  destruct ((1 <? g) && pdvd g P && (m mod g =? 0)) eqn:E; intro H; injection H as <- <-; auto.
  apply andb_prop in E as [E E3]. apply andb_prop in E as [E1 E2].
  apply Z.ltb_lt in E1. apply Z.eqb_eq in E3.
  assert (M : m = g * (m / g)) by (apply Z.div_exact; lia).
  split; [nia|]. split; [now apply poly_lt_pdiv|].
  rewrite (pdiv_sound r g P) by (auto; lia). rewrite M at 2. rewrite Z.div_mul_cancel_l; nia.
Qed.

Lemma source_sound n r con a P m : Forall (con_ok n r) con -> source con a = Some (P, m) -> con_ok n r (P, m, a).
Proof.
  induction 1 as [|[[P' m'] b] con H _ IH]; cbn [source]; try discriminate.
  destruct (Pos.eqb_spec a b) as [->|]; auto. intro E; injection E as -> ->. auto.
Qed.
Lemma flatq_sound n r con P m P' m' : Forall (con_ok n r) con -> 0 < m -> poly_lt n P ->
  flatq con (P, m) = (P', m') -> 0 < m' /\ poly_lt n P' /\ peval r P' / m' = peval r P / m.
Proof.
  intros HC Hm HP. unfold flatq.
  assert (K : (P, m) = (P', m') -> 0 < m' /\ poly_lt n P' /\ peval r P' / m' = peval r P / m).
  { intro E; injection E as <- <-. auto. }
  destruct P as [|[[|a [|]] [|[ | | ]|]] [|]]; auto.
  destruct (source con a) as [[P0 m0]|] eqn:E; auto.
  apply (source_sound n r) in E as (H1 & H2 & _ & H3); auto.
  intro X; injection X as <- <-. split; [nia|]. split; auto.
  change [([a], 1)] with (patom a). rewrite peval_patom, H3, Z.div_div by lia. reflexivity.
Qed.

Lemma newq_sound r s st P m q s' x :
  Inv r s st -> 0 < m -> poly_lt (snext s) P -> inI q (peval r P / m) ->
  newq s P m q = (s', x) ->
  exists r', ext (snext s) r r' /\ (snext s <= snext s')%positive /\ Inv r' s' st /\
             sv_ok (snext s') r' (peval r P / m) x.
Proof.
  intros HI Hm HP Hq. unfold newq.
  destruct (fst q =? snd q) eqn:E1.
  { intro H; injection H as <- <-. exists r. apply Z.eqb_eq in E1. unfold inI in Hq.
    split; [congruence|]. split; [lia|]. split; auto.
    unfold sv_ok; cbn [sp slo shi]. rewrite peval_pconst. repeat split; try lia. apply poly_lt_pconst. }
  destruct (bitform (srng s) P) as [[[c k] a]|] eqn:E2.
  { pose proof (bitform_sound _ r _ _ _ _ (inv_rng _ _ _ HI) E2) as [B1 B2].
    assert (Ha : (a < snext s)%positive).
    { unfold bitform in E2. destruct P as [|[[|b [|? ?]] c1] [|[[|d [|? ?]] k1] [|]]]; try discriminate.
      - destruct (PositiveMap.find d (srng s)) as [[l h]|]; try discriminate.
        destruct ((0 <=? l) && (h <=? 1)); try discriminate. injection E2 as _ _ ->.
        inversion HP as [|? ? _ HP1]; subst. inversion HP1 as [|? ? HP2 _]; subst. inversion HP2; auto.
      - destruct (PositiveMap.find b (srng s)) as [[l h]|]; try discriminate.
        destruct ((0 <=? l) && (h <=? 1)); try discriminate. injection E2 as _ _ ->.
        inversion HP as [|? ? HP1 _]; subst. inversion HP1; auto. }
    intro H; injection H as <- <-. exists r.
    split; [congruence|]. split; [lia|]. split; auto.
    unfold sv_ok; cbn [sp slo shi]. split; [|split; [exact Hq|]].
    - rewrite peval_padd, peval_pscale, peval_patom, peval_pconst, B1.
      assert (D : r a = 0 \/ r a = 1) by lia. destruct D as [D|D]; rewrite D.
      + rewrite Z.mul_0_r, Z.add_0_r. lia.
      + rewrite !Z.mul_1_r. lia.
    - apply poly_lt_padd; [apply poly_lt_pconst|]. apply poly_lt_pscale, poly_lt_patom; auto. }
  destruct (qnorm P m) as [P1 m1] eqn:QN.
  apply (qnorm_sound (snext s) r) in QN as (Hm1 & HP1 & HQ1); auto.
  destruct (flatq (scon s) (P1, m1)) as [P' m'] eqn:FN.
  apply (flatq_sound (snext s) r) in FN as (Hm' & HP' & HQ); auto; [|apply HI].
  rewrite HQ1 in HQ. clear HQ1 Hm1 HP1 P1 m1.
  rewrite <- HQ in *. clear HQ E2 Hm HP P m. rename P' into P, m' into m, Hm' into Hm, HP' into HP.
  destruct (memo (scon s) P m) as [a|] eqn:E3.
  { apply (memo_sound (snext s) r) in E3 as [M1 M2]; [|apply HI].
    intro H; injection H as <- <-. exists r. split; [congruence|]. split; [lia|]. split; auto.
    unfold sv_ok; cbn [sp slo shi]. rewrite peval_patom. repeat split; try apply Hq; auto.
    now apply poly_lt_patom. }
  intro H; injection H as <- <-.
  set (r' := fun a => if Pos.eqb a (snext s) then peval r P / m else r a).
  assert (E : ext (snext s) r r').
  { intros a Ha. unfold r'. destruct (Pos.eqb_spec a (snext s)); auto. lia. }
  assert (Rn : r' (snext s) = peval r P / m) by (unfold r'; now rewrite Pos.eqb_refl).
  exists r'. cbn [snext]. split; auto. split; [lia|]. split.
  - constructor; cbn [srng snext scon smap sch].
    + intros a y Hf. destruct (Pos.eq_dec a (snext s)) as [->|Ne].
      * rewrite PositiveMap.gss in Hf. injection Hf as <-. now rewrite Rn.
      * rewrite PositiveMap.gso in Hf by auto. unfold r'.
        destruct (Pos.eqb_spec a (snext s)); [contradiction|]. now apply (inv_rng _ _ _ HI).
    + constructor.
      * repeat split; auto.
        -- eapply poly_lt_weaken; [|exact HP]. lia.
        -- lia.
        -- rewrite Rn. f_equal. eapply peval_ext; eauto.
      * eapply Forall_impl; [|apply (inv_con _ _ _ HI)]. intros c. apply con_ok_ext; auto. lia.
    + intros l y Hf. eapply sv_ok_ext; [exact E| |now apply (inv_map _ _ _ HI)]. lia.
    + intros l y Hf. eapply ch_ok_ext; [exact E| |now apply (inv_ch _ _ _ HI)]. lia.
  - unfold sv_ok; cbn [sp slo shi]. rewrite peval_patom, Rn.
    split; auto. split; [exact Hq|]. apply poly_lt_patom. lia.
Qed.

(** ** Operations *)
Definition sget (s : sst) (o : opd) : option sval :=
  match o with
  | L l => PositiveMap.find l (smap s)
  | I z => Some (SV (pconst z) z z)
  end.

Lemma sget_sound r s st o x : Inv r s st -> sget s o = Some x -> sv_ok (snext s) r (ev st o) x.
Proof.
  intro HI. destruct o; cbn [sget ev].
  - apply HI.
  - intro H; injection H as <-. unfold sv_ok; cbn [sp slo shi]. rewrite peval_pconst.
    repeat split; try lia. apply poly_lt_pconst.
Qed.

(** Writing a location forgets its carry-chain description. *)
Definition sset (d : loc) (x : sval) (s : sst) : sst :=
  SST (PositiveMap.add d x (smap s)) (PositiveMap.remove d (sch s)) (snext s) (srng s) (scon s).
Definition sset_ch (d : loc) (c : chain) (s : sst) : sst :=
  SST (smap s) (PositiveMap.add d c (sch s)) (snext s) (srng s) (scon s).

Lemma sset_sound r s st d v x : Inv r s st -> sv_ok (snext s) r v x -> Inv r (sset d x s) (set d v st).
Proof.
  intros HI Hx. constructor; cbn [sset srng scon smap sch snext]; try apply HI.
  - intros l y. destruct (Pos.eq_dec l d) as [->|N].
    + rewrite PositiveMap.gss. intro H; injection H as <-. now rewrite get_set_same.
    + rewrite PositiveMap.gso by auto. rewrite get_set_other by auto. apply HI.
  - intros l y. destruct (Pos.eq_dec l d) as [->|N].
    + rewrite PositiveMap.grs. discriminate.
    + rewrite PositiveMap.gro by auto. rewrite get_set_other by auto. apply HI.
Qed.
Lemma sset_ch_sound r s st d c : Inv r s st -> ch_ok (snext s) r (get st d) c -> Inv r (sset_ch d c s) st.
Proof.
  intros HI Hc. constructor; cbn [sset_ch srng scon smap sch snext]; try apply HI.
  intros l y. destruct (Pos.eq_dec l d) as [->|N].
  - rewrite PositiveMap.gss. intro H; injection H as <-. auto.
  - rewrite PositiveMap.gso by auto. apply HI.
Qed.

Definition svadd (x y : sval) : sval := SV (padd (sp x) (sp y)) (slo x + slo y) (shi x + shi y).
Definition svsub (x y : sval) : sval := SV (psub (sp x) (sp y)) (slo x - shi y) (shi x - slo y).
Definition svneg (x : sval) : sval := SV (pscale (-1) (sp x)) (- shi x) (- slo x).
Definition svmul (x y : sval) : sval :=
  let i := imul (slo x, shi x) (slo y, shi y) in SV (pmul (sp x) (sp y)) (fst i) (snd i).
Definition svtight (s : sst) (x : sval) : sval :=
  let i := tight (srng s) (sp x) (slo x, shi x) in SV (sp x) (fst i) (snd i).
(** Effort hint [h]: 0 keeps the interval, otherwise it is tightened. *)
Definition svtighth (h : nat) (s : sst) (x : sval) : sval := match h with O => x | _ => svtight s x end.
Definition svscale (k : Z) (x : sval) : sval :=
  if 0 <=? k then SV (pscale k (sp x)) (k * slo x) (k * shi x)
  else SV (pscale k (sp x)) (k * shi x) (k * slo x).

Section OpsSound.
  Variables (n : atom) (r : atom -> Z).
  Lemma svadd_ok u v x y : sv_ok n r u x -> sv_ok n r v y -> sv_ok n r (u + v) (svadd x y).
  Proof.
    intros (-> & H1 & H2) (-> & H3 & H4). repeat split; cbn [svadd sp slo shi]; try lia.
    - now rewrite peval_padd.
    - now apply poly_lt_padd.
  Qed.
  Lemma svsub_ok u v x y : sv_ok n r u x -> sv_ok n r v y -> sv_ok n r (u - v) (svsub x y).
  Proof.
    intros (-> & H1 & H2) (-> & H3 & H4). repeat split; cbn [svsub sp slo shi]; try lia.
    - now rewrite peval_psub.
    - now apply poly_lt_psub.
  Qed.
  Lemma svneg_ok u x : sv_ok n r u x -> sv_ok n r (- u) (svneg x).
  Proof.
    intros (-> & H1 & H2). repeat split; cbn [svneg sp slo shi]; try lia.
    - rewrite peval_pscale; lia.
    - now apply poly_lt_pscale.
  Qed.
  Lemma svmul_ok u v x y : sv_ok n r u x -> sv_ok n r v y -> sv_ok n r (u * v) (svmul x y).
  Proof.
    intros (H0 & H1 & H2) (H0' & H3 & H4). unfold sv_ok, svmul; cbn [sp slo shi].
    split; [|split].
    - now rewrite peval_pmul, <- H0, <- H0'.
    - apply (imul_sound (slo x, shi x) (slo y, shi y)); auto.
    - now apply poly_lt_pmul.
  Qed.
  Lemma svscale_ok k u x : sv_ok n r u x -> sv_ok n r (k * u) (svscale k x).
  Proof.
    intros (-> & H1 & H2). unfold svscale. destruct (0 <=? k) eqn:E; unfold sv_ok; cbn [sp slo shi];
    rewrite peval_pscale; (split; [auto|]); (split; [|now apply poly_lt_pscale]).
    - apply Z.leb_le in E. nia.
    - apply Z.leb_gt in E. nia.
  Qed.
End OpsSound.
Lemma svtight_ok r s st u x : Inv r s st -> sv_ok (snext s) r u x -> sv_ok (snext s) r u (svtight s x).
Proof.
  intros HI (-> & H1 & H2). unfold sv_ok, svtight; cbn [sp slo shi]. split; auto. split; auto.
  apply (tight_sound (srng s) r (sp x) (slo x, shi x)); auto. apply HI.
Qed.
Lemma svtighth_ok h r s st u x : Inv r s st -> sv_ok (snext s) r u x -> sv_ok (snext s) r u (svtighth h s x).
Proof. destruct h; auto. apply svtight_ok. Qed.

(** Drop the terms whose coefficient is a multiple of [m]. *)
Definition pdrop (m : Z) (p : poly) : poly := filter (fun t => negb (snd t mod m =? 0)) p.
Lemma pdrop_sound r m p : m <> 0 -> peval r (pdrop m p) mod m = peval r p mod m.
Proof.
  intro Hm. induction p as [|[k c] p IH]; auto. cbn [pdrop filter snd].
  fold (pdrop m p). destruct (c mod m =? 0) eqn:E; cbn [negb].
  - rewrite peval_cons, IH. unfold term_eval; cbn [fst snd]. apply Z.eqb_eq in E.
    apply Z.mod_divide in E as [z ->]; auto.
    replace (z * m * mono_eval r k + peval r p) with (peval r p + (z * mono_eval r k) * m) by ring.
    now rewrite Z.mod_add.
  - rewrite !peval_cons, Z.add_mod, IH, <- Z.add_mod; auto.
Qed.
Lemma poly_lt_pdrop n m p : poly_lt n p -> poly_lt n (pdrop m p).
Proof.
  induction 1 as [|t p H _ IH]; cbn [pdrop filter]; [constructor|].
  destruct (negb _); auto. constructor; auto.
Qed.

(** Floor quotient and remainder of a described value. *)
Definition sdiv (s : sst) (x : sval) (m : Z) : sst * sval := newq s (sp x) m (slo x / m, shi x / m).
Definition smodq (x : sval) (q : sval) (m : Z) : sval :=
  let d := psub (sp x) (pscale m (sp q)) in
  if slo q =? shi q then SV d (Z.max 0 (slo x - m * slo q)) (Z.min (m - 1) (shi x - m * slo q))
  else SV d 0 (m - 1).
Definition smod (s : sst) (x : sval) (m : Z) : sst * sval :=
  if (0 <=? slo x) && (shi x <? m) then (s, x) else
  let i := pint (srng s) (pdrop m (sp x)) in
  match i with
  | Some (l, h) =>
      if (0 <=? l) && (h <? m) then (s, SV (pdrop m (sp x)) l h)
      else let '(s, q) := sdiv s x m in (s, smodq x q m)
  | None => let '(s, q) := sdiv s x m in (s, smodq x q m)
  end.

Lemma sdiv_sound r s st v x m s' q :
  Inv r s st -> 0 < m -> sv_ok (snext s) r v x -> sdiv s x m = (s', q) ->
  exists r', ext (snext s) r r' /\ (snext s <= snext s')%positive /\ Inv r' s' st /\
             sv_ok (snext s') r' (v / m) q.
Proof.
  intros HI Hm (H1 & H2 & H3) H. unfold sdiv in H.
  eapply newq_sound in H; eauto. { now rewrite H1. }
  rewrite <- H1. unfold inI; cbn [fst snd]. split; apply Z.div_le_mono; lia.
Qed.

Lemma smodq_ok n r v x q m : 0 < m -> sv_ok n r v x -> sv_ok n r (v / m) q ->
  sv_ok n r (v mod m) (smodq x q m).
Proof.
  intros Hm (H1 & H2 & H3) (H4 & H5 & H6).
  pose proof (Z.mod_pos_bound v m Hm) as B. pose proof (Z.mod_eq v m ltac:(lia)) as E.
  assert (P : v mod m = peval r (psub (sp x) (pscale m (sp q)))).
  { rewrite peval_psub, peval_pscale, <- H4, <- H1. lia. }
  assert (Q : poly_lt n (psub (sp x) (pscale m (sp q)))).
  { apply poly_lt_psub; auto. now apply poly_lt_pscale. }
  unfold smodq. destruct (slo q =? shi q) eqn:C; unfold sv_ok; cbn [sp slo shi].
  - apply Z.eqb_eq in C. assert (v / m = slo q) by lia. repeat split; auto; nia.
  - repeat split; auto; lia.
Qed.

Lemma smod_sound r s st v x m s' y :
  Inv r s st -> 0 < m -> sv_ok (snext s) r v x -> smod s x m = (s', y) ->
  exists r', ext (snext s) r r' /\ (snext s <= snext s')%positive /\ Inv r' s' st /\
             sv_ok (snext s') r' (v mod m) y.
Proof.
  intros HI Hm Hx H. unfold smod in H.
  destruct ((0 <=? slo x) && (shi x <? m)) eqn:C.
  { injection H as <- <-. apply andb_prop in C as [C1 C2]. apply Z.leb_le in C1. apply Z.ltb_lt in C2.
    exists r. split; [now intro|]. split; [lia|]. split; auto.
    destruct Hx as (H1 & H2 & H3). rewrite Z.mod_small by lia. split; auto. }
  assert (G : (let '(s, q) := sdiv s x m in (s, smodq x q m)) = (s', y) ->
     exists r', ext (snext s) r r' /\ (snext s <= snext s')%positive /\ Inv r' s' st /\
             sv_ok (snext s') r' (v mod m) y).
  { destruct (sdiv s x m) as [s1 q] eqn:E. intro K; injection K as <- <-.
    eapply sdiv_sound in E as (r' & E1 & E2 & E3 & E4); eauto.
    exists r'. split; auto. split; auto. split; auto. eapply smodq_ok; eauto; eapply sv_ok_ext; eauto. }
  destruct (pint (srng s) (pdrop m (sp x))) as [[l h]|] eqn:P; auto.
  destruct ((0 <=? l) && (h <? m)) eqn:C'; auto. clear G.
  injection H as <- <-. apply andb_prop in C' as [C1 C2]. apply Z.leb_le in C1. apply Z.ltb_lt in C2.
  apply (pint_sound _ r) in P; [|apply HI]. unfold inI in P; cbn [fst snd] in P.
  destruct Hx as (H1 & H2 & H3).
  exists r. split; [now intro|]. split; [lia|]. split; auto.
  unfold sv_ok; cbn [sp slo shi].
  assert (X : v mod m = peval r (pdrop m (sp x))).
  { rewrite H1, <- (pdrop_sound r m) by lia. apply Z.mod_small. lia. }
  rewrite X. split; auto. split; auto. now apply poly_lt_pdrop.
Qed.

(** Upper bound of a polynomial by eliminating quotient atoms, newest first,
    through their definitions; the best bound met on the way is kept. *)
Fixpoint lcoef (a : atom) (p : poly) : Z :=
  match p with
  | [] => 0
  | ([b], c) :: p => if Pos.eqb a b then c else lcoef a p
  | _ :: p => lcoef a p
  end.
Definition bmin (b : option Z) (z : Z) : option Z :=
  match b with Some y => Some (Z.min y z) | None => Some z end.
Definition cand (rng : PositiveMap.t (Z * Z)) (p : poly) (e D : Z) (b : option Z) : option Z :=
  match pint rng p with Some (_, h) => bmin b ((h + e) / D) | None => b end.
Fixpoint elim (rng : PositiveMap.t (Z * Z)) (con : list (poly * Z * atom)) (p : poly) (e D : Z) (b : option Z)
  : option Z :=
  match con with
  | [] => b
  | (P, m, a) :: con =>
      let c := lcoef a p in
      if c =? 0 then elim rng con p e D b else
      let g := Z.gcd c m in
      let c' := c / g in
      let m' := m / g in
      if (0 <? m') && (c =? g * c') && (m =? g * m') then
        let p' := padd (pscale m' (psub p (pscale c (patom a)))) (pscale c' P) in
        let e' := if 0 <? c then m' * e else m' * e - c' * (m - 1) in
        let D' := m' * D in
        elim rng con p' e' D' (cand rng p' e' D' b)
      else elim rng con p e D b
  end.
Definition ubound (s : sst) (p : poly) : option Z := elim (srng s) (scon s) p 0 1 None.

Lemma cand_sound rng r p e D b v : rng_ok rng r -> 0 < D -> D * v <= peval r p + e ->
  (forall z, b = Some z -> v <= z) -> forall z, cand rng p e D b = Some z -> v <= z.
Proof.
  intros R HD Hv Hb z. unfold cand. destruct (pint rng p) as [[l h]|] eqn:P; auto.
  apply (pint_sound _ r) in P; auto. unfold inI in P; cbn [fst snd] in P.
  assert (K : v <= (h + e) / D) by (apply Z.div_le_lower_bound; lia).
  unfold bmin. destruct b as [y|]; intro E; injection E as <-; auto.
  specialize (Hb y eq_refl). lia.
Qed.
Lemma elim_sound n rng r con : rng_ok rng r -> Forall (con_ok n r) con ->
  forall p e D b v, 0 < D -> D * v <= peval r p + e -> (forall z, b = Some z -> v <= z) ->
  forall z, elim rng con p e D b = Some z -> v <= z.
Proof.
  intros R H. induction H as [|[[P m] a] con Hc _ IH]; intros p e D b v HD Hv Hb z; cbn [elim]; auto.
  set (c := lcoef a p). destruct (c =? 0); [now apply IH|].
  set (g := Z.gcd c m). set (c' := c / g). set (m' := m / g).
  destruct ((0 <? m') && (c =? g * c') && (m =? g * m')) eqn:E; [|now apply IH].
  apply andb_prop in E as [E E3]. apply andb_prop in E as [E1 E2].
  apply Z.ltb_lt in E1. apply Z.eqb_eq in E2, E3.
  set (p' := padd _ _). set (e' := if 0 <? c then _ else _).
  destruct Hc as (Hm & _ & _ & Ha).
  pose proof (Z.mod_pos_bound (peval r P) m Hm) as B. rewrite Z.mod_eq, <- Ha in B by lia.
  assert (G : 0 < g) by nia.
  assert (X : m' * D * v <= peval r p' + e').
  { unfold p'. rewrite peval_padd, !peval_pscale, peval_psub, peval_pscale, peval_patom.
    assert (Y : m' * (D * v) <= m' * (peval r p + e)) by nia.
    assert (Q : m' * (c * r a) = c' * (m * r a)) by (rewrite E2, E3; ring).
    unfold e'. destruct (0 <? c) eqn:C.
    - apply Z.ltb_lt in C. assert (0 <= c') by nia. assert (c' * (m * r a) <= c' * peval r P) by nia. nia.
    - apply Z.ltb_ge in C. assert (c' <= 0) by nia.
      assert (c' * (m * r a) <= c' * (peval r P - (m - 1))) by nia. nia. }
  apply (IH p' e' (m' * D)); auto; [nia|].
  intros z' Hz'. eapply cand_sound; [exact R| |exact X|exact Hb|exact Hz']. nia.
Qed.
Lemma ubound_sound r s st p z : Inv r s st -> ubound s p = Some z -> peval r p <= z.
Proof.
  intros HI. unfold ubound. eapply elim_sound; [apply HI|apply HI| | |]; try lia. discriminate.
Qed.
(** Improve a non-constant quotient interval. *)
Definition qtight (s : sst) (p : poly) (m : Z) (q : Z * Z) : Z * Z :=
  if fst q <? snd q then
    (if fst q <? 0 then
       match ubound s (pscale (-1) p) with Some z => Z.max (fst q) ((- z) / m) | None => fst q end
     else fst q,
     if 0 <? snd q then
       match ubound s p with Some z => Z.min (snd q) (z / m) | None => snd q end
     else snd q)
  else q.
Lemma qtight_sound r s st p m q : Inv r s st -> 0 < m -> inI q (peval r p / m) ->
  inI (qtight s p m q) (peval r p / m).
Proof.
  intros HI Hm Hq. unfold qtight. destruct (fst q <? snd q); auto. unfold inI in *; cbn [fst snd].
  split.
  - destruct (fst q <? 0); [|lia]. destruct (ubound s (pscale (-1) p)) as [z|] eqn:U; [|lia].
    apply (ubound_sound r s st) in U; auto. rewrite peval_pscale in U.
    assert (- z / m <= peval r p / m) by (apply Z.div_le_mono; lia). lia.
  - destruct (0 <? snd q); [|lia]. destruct (ubound s p) as [z|] eqn:U; [|lia].
    apply (ubound_sound r s st) in U; auto.
    assert (peval r p / m <= z / m) by (apply Z.div_le_mono; lia). lia.
Qed.

(** Addition with carry in and carry out.  [neg] selects subtraction. *)
Definition chain_of (s : sst) (neg : bool) (o : opd) : option chain :=
  match o with
  | L l => match PositiveMap.find l (sch s) with
           | Some c => if Bool.eqb (cneg c) neg then Some c else None
           | None => None
           end
  | I _ => None
  end.

Definition sadc (h : nat) (s : sst) (neg : bool) (d c : loc) (x y z : sval) (ch : option chain) : sst :=
  let xy := if neg then svsub x y else svadd x y in
  let v := svtighth h s (if neg then svsub xy z else svadd xy z) in
  let C := match ch with
           | Some k => CH neg (padd (cS k) (pscale (cM k) (sp xy))) (cM k * W)
           | None => CH neg (sp v) W
           end in
  let q0 := (slo v / W, shi v / W) in
  let q := match h, ch with
           | S _, Some _ =>
               match pint (srng s) (cS C) with
               | Some (l, h) => (Z.max (fst q0) (l / cM C), Z.min (snd q0) (h / cM C))
               | None => q0
               end
           | _, _ => q0
           end in
  let q := match h with S (S _) => qtight s (sp v) W q | _ => q end in
  let '(s, k) := newq s (sp v) W q in
  let k' := if neg then svneg k else k in
  sset d (smodq v k W) (sset_ch c C (sset c k' s)).

Lemma div_div_add S M v : 0 < M -> (M * v + S) / (M * W) = (v + S / M) / W.
Proof.
  intro HM. rewrite <- Z.div_div by (unfold W; lia).
  rewrite (Z.mul_comm M v), Z.div_add_l by lia. reflexivity.
Qed.

Lemma sadc_sound h r s st neg d c u v w x y z ch :
  Inv r s st -> sv_ok (snext s) r u x -> sv_ok (snext s) r v y -> sv_ok (snext s) r w z ->
  (forall k, ch = Some k -> ch_ok (snext s) r w k /\ cneg k = neg) ->
  let t := if neg : bool then u - v - w else u + v + w in
  exists r', ext (snext s) r r' /\ (snext s <= snext (sadc h s neg d c x y z ch))%positive /\
   Inv r' (sadc h s neg d c x y z ch)
     (set d (t mod W) (set c (if neg then - (t / W) else t / W) st)).
Proof.
  intros HI Hx Hy Hz Hch t. unfold sadc.
  set (xy := if neg then svsub x y else svadd x y).
  set (e := if neg then u - v else u + v).
  assert (Hxy : sv_ok (snext s) r e xy).
  { unfold e, xy. destruct neg; [now apply svsub_ok|now apply svadd_ok]. }
  set (vv := svtighth h s (if neg then svsub xy z else svadd xy z)).
  assert (Hv : sv_ok (snext s) r t vv).
  { unfold t, vv. eapply svtighth_ok; eauto. unfold e in *.
    destruct neg; [now apply svsub_ok|now apply svadd_ok]. }
  set (C := match ch with
           | Some k => CH neg (padd (cS k) (pscale (cM k) (sp xy))) (cM k * W)
           | None => CH neg (sp vv) W
           end).
  assert (HC : 0 < cM C /\ poly_lt (snext s) (cS C) /\ peval r (cS C) / cM C = t / W /\ cneg C = neg).
  { unfold C. destruct ch as [k|].
    - destruct (Hch k eq_refl) as [(K1 & K2 & K3) K4]. cbn [cM cS cneg].
      split; [unfold W; lia|]. split.
      + apply poly_lt_padd; auto. apply poly_lt_pscale. apply Hxy.
      + split; auto. rewrite peval_padd, peval_pscale, Z.add_comm, div_div_add by auto.
        destruct Hxy as (<- & _). f_equal. unfold t, e. rewrite K3, K4. destruct neg; lia.
    - cbn [cM cS cneg]. destruct Hv as (E & _ & Hp).
      rewrite <- E. unfold W at 1. repeat split; auto; lia. }
  destruct HC as (C1 & C2 & C3 & C4).
  set (q0 := (slo vv / W, shi vv / W)).
  assert (Hq0 : inI q0 (t / W)).
  { destruct Hv as (_ & B & _). unfold inI, q0; cbn [fst snd].
    split; apply Z.div_le_mono; unfold W; lia. }
  set (q := match h, ch with
           | S _, Some _ =>
               match pint (srng s) (cS C) with
               | Some (l, h) => (Z.max (fst q0) (l / cM C), Z.min (snd q0) (h / cM C))
               | None => q0
               end
           | _, _ => q0
           end).
  assert (Hq : inI q (peval r (sp vv) / W)).
  { destruct Hv as (E & _). rewrite <- E. unfold q. destruct h; auto. destruct ch; auto.
    destruct (pint (srng s) (cS C)) as [[l h']|] eqn:P; auto.
    apply (pint_sound _ r) in P; [|apply HI]. unfold inI in *; cbn [fst snd] in *.
    assert (l / cM C <= t / W) by (rewrite <- C3; apply Z.div_le_mono; lia).
    assert (t / W <= h' / cM C) by (rewrite <- C3; apply Z.div_le_mono; lia). lia. }
  set (q' := match h with S (S _) => qtight s (sp vv) W q | _ => q end).
  assert (Hq' : inI q' (peval r (sp vv) / W)).
  { unfold q'. destruct h as [|[|]]; auto. apply (qtight_sound r s st); auto. unfold W; lia. }
  clearbody q'. clear Hq q.
  destruct (newq s (sp vv) W q') as [s1 k] eqn:N.
  eapply newq_sound in N as (r' & N1 & N2 & N3 & N4); eauto; [|unfold W; lia|apply Hv].
  destruct Hv as (E & Hv1 & Hv2). rewrite <- E in N4.
  exists r'. cbn [sset sset_ch snext]. split; auto. split; auto.
  apply sset_sound.
  - apply sset_ch_sound.
    + apply sset_sound; auto. destruct neg; auto. now apply svneg_ok.
    + cbn [sset snext]. rewrite get_set_same. unfold ch_ok. rewrite C4.
      repeat split; auto. { eapply poly_lt_weaken; eauto. }
      rewrite <- (peval_ext (snext s) r r' (cS C)) by auto. rewrite C3. destruct neg; lia.
  - cbn [sset sset_ch snext]. apply smodq_ok; auto. { unfold W; lia. }
    eapply sv_ok_ext; eauto. split; auto.
Qed.

(** Bit masks. *)
Definition const_of (p : poly) : option Z :=
  match p with [] => Some 0 | [([], c)] => Some c | _ => None end.

Lemma const_of_sound r p c : const_of p = Some c -> peval r p = c.
Proof.
  destruct p as [|[[|? ?] k] [|]]; try discriminate; cbn [const_of]; intro H; injection H as <-.
  - reflexivity.
  - unfold peval, term_eval, mono_eval; cbn [fold_right fst snd]. ring.
Qed.

(** [z = 2^k - 1] with the exponent exposed. *)
Definition mask_ok (z : Z) : bool := (0 <? z) && (z =? Z.ones (Z.log2 z + 1)).
Lemma mask_ok_sound z v : mask_ok z = true -> Z.land v z = v mod (z + 1) /\ 0 < z + 1.
Proof.
  unfold mask_ok. intro H. apply andb_prop in H as [H1 H2].
  apply Z.ltb_lt in H1. apply Z.eqb_eq in H2.
  split; [|lia].
  pose proof (Z.log2_nonneg z) as L.
  set (k := Z.log2 z + 1) in *. assert (0 <= k) by lia.
  rewrite H2 at 1. rewrite Z.land_ones by auto. f_equal. rewrite H2, Z.ones_equiv. lia.
Qed.

(** [z = 2^64 - 2^k]. *)
Lemma land_compl z u : 0 <= u < W -> 0 <= z < W -> Z.land u (W - 1 - z) = u - Z.land u z.
Proof.
  intros Hu Hz. symmetry.
  assert (A : u - Z.land u z = Z.ldiff u (Z.land u z)).
  { apply Z.sub_nocarry_ldiff. apply Z.bits_inj'. intros i Hi.
    rewrite Z.ldiff_spec, Z.land_spec, Z.bits_0. now destruct (Z.testbit u i), (Z.testbit z i). }
  rewrite A.
  assert (B : W - 1 - z = Z.ldiff (Z.ones 64) z).
  { change (W - 1) with (Z.ones 64). apply Z.sub_nocarry_ldiff. apply Z.bits_inj'. intros i Hi.
    rewrite Z.ldiff_spec, Z.bits_0. destruct (Z.lt_ge_cases i 64).
    - rewrite Z.ones_spec_low by lia. apply andb_false_r.
    - replace z with (z mod 2 ^ 64) by (apply Z.mod_small; exact Hz).
      rewrite (Z.mod_pow2_bits_high z 64 i) by lia. reflexivity. }
  rewrite B. apply Z.bits_inj'. intros i Hi.
  rewrite Z.land_spec, !Z.ldiff_spec, Z.land_spec.
  destruct (Z.lt_ge_cases i 64).
  - rewrite Z.ones_spec_low by lia. now destruct (Z.testbit u i), (Z.testbit z i).
  - replace u with (u mod 2 ^ 64) by (apply Z.mod_small; exact Hu).
    rewrite (Z.mod_pow2_bits_high u 64 i) by lia. reflexivity.
Qed.

(** The 0/1 selector [s] when the value is [(2^64-1)*s]. *)
Definition allones_of (s : sst) (x : sval) : option poly :=
  if pdvd (W - 1) (sp x) then
    match pint (srng s) (pdiv (W - 1) (sp x)) with
    | Some (l, h) => if (0 <=? l) && (h <=? 1) then Some (pdiv (W - 1) (sp x)) else None
    | None => None
    end
  else None.
Lemma allones_sound r s st v x p : Inv r s st -> sv_ok (snext s) r v x -> allones_of s x = Some p ->
  v = (W - 1) * peval r p /\ (peval r p = 0 \/ peval r p = 1) /\ poly_lt (snext s) p.
Proof.
  intros HI (E & _ & H). unfold allones_of.
  destruct (pdvd (W - 1) (sp x)) eqn:D; try discriminate.
  destruct (pint (srng s) (pdiv (W - 1) (sp x))) as [[l h]|] eqn:P; try discriminate.
  destruct ((0 <=? l) && (h <=? 1)) eqn:B; try discriminate.
  intro K; assert (K' : pdiv (W - 1) (sp x) = p) by congruence. rewrite K' in *.
  apply andb_prop in B as [B1 B2]. apply Z.leb_le in B1, B2.
  apply (pint_sound _ r) in P; [|apply HI]. unfold inI in P; cbn [fst snd] in P.
  split; [|split; [lia|rewrite <- K'; now apply poly_lt_pdiv]].
  rewrite E, <- K'. apply pdiv_sound; auto. unfold W; lia.
Qed.

Definition isword (x : sval) : bool := (0 <=? slo x) && (shi x <? W).

Lemma isword_sound n r v x : sv_ok n r v x -> isword x = true -> 0 <= v < W.
Proof.
  intros (_ & H & _) B. apply andb_prop in B as [B1 B2].
  apply Z.leb_le in B1. apply Z.ltb_lt in B2. lia.
Qed.

Definition sand (s : sst) (x y : sval) : option (sst * sval) :=
  match const_of (sp x), const_of (sp y) with
  | Some a, Some b => Some (s, SV (pconst (Z.land a b)) (Z.land a b) (Z.land a b))
  | _, Some b =>
      if b =? 0 then Some (s, SV [] 0 0)
      else if mask_ok b then Some (smod s x (b + 1))
      else if mask_ok (W - 1 - b) && isword x && (0 <=? b) then
        let '(s, y) := smod s x (W - b) in Some (s, svtight s (svsub x y))
      else match allones_of s x with
           | Some p => if isword y then Some (s, SV (pmul p (sp y)) 0 (shi y)) else None
           | None => None
           end
  | Some b, None =>
      if b =? 0 then Some (s, SV [] 0 0)
      else if mask_ok b then Some (smod s y (b + 1))
      else match allones_of s y with
           | Some p => if isword x then Some (s, SV (pmul p (sp x)) 0 (shi x)) else None
           | None => None
           end
  | None, None =>
      match allones_of s x with
      | Some p => if isword y then Some (s, SV (pmul p (sp y)) 0 (shi y)) else None
      | None => match allones_of s y with
                | Some p => if isword x then Some (s, SV (pmul p (sp x)) 0 (shi x)) else None
                | None => None
                end
      end
  end.

Lemma land_allones_l b v : b = 0 \/ b = 1 -> 0 <= v < W -> Z.land ((W - 1) * b) v = b * v.
Proof.
  intros [->| ->] H.
  - rewrite Z.mul_0_r, Z.land_0_l. lia.
  - rewrite Z.mul_1_r, Z.mul_1_l, Z.land_comm. change (W - 1) with (Z.ones 64).
    rewrite Z.land_ones by lia. apply Z.mod_small. exact H.
Qed.

Lemma sv_ok_sel n r p x v : (peval r p = 0 \/ peval r p = 1) -> poly_lt n p -> sv_ok n r v x ->
  0 <= v -> sv_ok n r (peval r p * v) (SV (pmul p (sp x)) 0 (shi x)).
Proof.
  intros Hp Hl (E & B & H) Hv. unfold sv_ok; cbn [sp slo shi].
  rewrite peval_pmul, <- E. split; auto. split; [nia|]. now apply poly_lt_pmul.
Qed.

Lemma sv_ok_const n r z : sv_ok n r z (SV (pconst z) z z).
Proof.
  unfold sv_ok; cbn [sp slo shi]. rewrite peval_pconst. repeat split; try lia. apply poly_lt_pconst.
Qed.
Lemma sv_ok_zero n r : sv_ok n r 0 (SV [] 0 0).
Proof. unfold sv_ok; cbn [sp slo shi]. repeat split; try reflexivity; try lia. constructor. Qed.

Lemma sand_sound r s st u v x y s' z :
  Inv r s st -> sv_ok (snext s) r u x -> sv_ok (snext s) r v y -> sand s x y = Some (s', z) ->
  exists r', ext (snext s) r r' /\ (snext s <= snext s')%positive /\ Inv r' s' st /\
             sv_ok (snext s') r' (Z.land u v) z.
Proof.
  intros HI Hx Hy.
  assert (Refl : forall w z', sv_ok (snext s) r w z' ->
     exists r', ext (snext s) r r' /\ (snext s <= snext s)%positive /\ Inv r' s st /\ sv_ok (snext s) r' w z').
  { intros. exists r. split; [now intro|]. split; [lia|]. auto. }
  assert (X : forall p (H : allones_of s x = Some p), isword y = true ->
     sv_ok (snext s) r (Z.land u v) (SV (pmul p (sp y)) 0 (shi y))).
  { intros p H Wy. apply (allones_sound r s st u) in H as (H1 & H2 & H3); auto.
    apply (isword_sound (snext s) r v) in Wy; auto. rewrite H1, land_allones_l by auto.
    apply sv_ok_sel; auto. lia. }
  assert (Y : forall p (H : allones_of s y = Some p), isword x = true ->
     sv_ok (snext s) r (Z.land u v) (SV (pmul p (sp x)) 0 (shi x))).
  { intros p H Wx. apply (allones_sound r s st v) in H as (H1 & H2 & H3); auto.
    apply (isword_sound (snext s) r u) in Wx; auto. rewrite Z.land_comm, H1, land_allones_l by auto.
    apply sv_ok_sel; auto. lia. }
  unfold sand.
  destruct (const_of (sp x)) as [a|] eqn:Cx; destruct (const_of (sp y)) as [b|] eqn:Cy.
  - intro H; injection H as <- <-. apply (const_of_sound r) in Cx, Cy.
    destruct Hx as (-> & _), Hy as (-> & _). rewrite Cx, Cy. apply Refl, sv_ok_const.
  - apply (const_of_sound r) in Cx. pose proof Hx as (Eu & _). rewrite Cx in Eu.
    destruct (a =? 0) eqn:A0.
    { apply Z.eqb_eq in A0. intro H; injection H as <- <-. rewrite Eu, A0, Z.land_0_l. apply Refl, sv_ok_zero. }
    destruct (mask_ok a) eqn:Am.
    { intro H; injection H as H. apply (mask_ok_sound a v) in Am as [M1 M2].
      rewrite Eu, Z.land_comm, M1. eapply smod_sound; eauto. }
    destruct (allones_of s y) eqn:Ay; try discriminate. destruct (isword x) eqn:Wx; try discriminate.
    intro H; injection H as <- <-. apply Refl. eauto.
  - apply (const_of_sound r) in Cy. pose proof Hy as (Ev & _). rewrite Cy in Ev.
    destruct (b =? 0) eqn:A0.
    { apply Z.eqb_eq in A0. intro H; injection H as <- <-. rewrite Ev, A0, Z.land_0_r. apply Refl, sv_ok_zero. }
    destruct (mask_ok b) eqn:Am.
    { intro H; injection H as H. apply (mask_ok_sound b u) in Am as [M1 M2].
      rewrite Ev, M1. eapply smod_sound; eauto. }
    destruct (mask_ok (W - 1 - b) && isword x && (0 <=? b)) eqn:Hm.
    { apply andb_prop in Hm as [Hm Hb]. apply andb_prop in Hm as [Hm Wx].
      apply (isword_sound (snext s) r u) in Wx; auto. apply Z.leb_le in Hb.
      pose proof Hm as Hm'. unfold mask_ok in Hm'. apply andb_prop in Hm' as [Hm' _].
      apply Z.ltb_lt in Hm'.
      apply (mask_ok_sound _ u) in Hm as [M1 M2].
      replace (W - 1 - b + 1) with (W - b) in * by lia.
      destruct (smod s x (W - b)) as [s1 y'] eqn:E. intro H; injection H as <- <-.
      eapply smod_sound in E as (r' & E1 & E2 & E3 & E4); eauto.
      exists r'. split; auto. split; auto. split; auto.
      rewrite Ev. replace b with (W - 1 - (W - 1 - b)) by lia. rewrite land_compl by lia.
      rewrite M1. eapply svtight_ok; eauto. apply svsub_ok; auto. eapply sv_ok_ext; eauto. }
    destruct (allones_of s x) eqn:Ay; try discriminate. destruct (isword y) eqn:Wx; try discriminate.
    intro H; injection H as <- <-. apply Refl. eauto.
  - destruct (allones_of s x) eqn:Ax.
    { destruct (isword y) eqn:Wy; try discriminate. intro H; injection H as <- <-. apply Refl. eauto. }
    destruct (allones_of s y) eqn:Ay; try discriminate. destruct (isword x) eqn:Wx; try discriminate.
    intro H; injection H as <- <-. apply Refl. eauto.
Qed.

(** Disjunction of disjoint bit ranges. *)
Definition disj (x y : sval) : bool :=
  (0 <=? slo x) && (0 <=? slo y) && pdvd (2 ^ (Z.log2 (shi y) + 1)) (sp x).
Lemma lor_disj k u v : 0 <= k -> 0 <= v < 2 ^ k -> u mod 2 ^ k = 0 -> Z.lor u v = u + v.
Proof.
  intros Hk Hv Hu.
  assert (L : Z.land u v = 0).
  { apply Z.bits_inj'. intros i Hi. rewrite Z.land_spec, Z.bits_0.
    destruct (Z.lt_ge_cases i k).
    - replace (Z.testbit u i) with (Z.testbit (u mod 2 ^ k) i).
      + rewrite Hu, Z.bits_0. reflexivity.
      + apply Z.mod_pow2_bits_low; auto.
    - replace v with (v mod 2 ^ k) by (apply Z.mod_small; lia).
      rewrite (Z.mod_pow2_bits_high v k i) by lia. apply andb_false_r. }
  symmetry. rewrite Z.add_nocarry_lxor by auto. now apply Z.lxor_lor.
Qed.
Lemma disj_sound n r u v x y : sv_ok n r u x -> sv_ok n r v y -> disj x y = true -> Z.lor u v = u + v.
Proof.
  intros (E & B & _) (E' & B' & _) D. unfold disj in D.
  apply andb_prop in D as [D D3]. apply andb_prop in D as [D1 D2]. apply Z.leb_le in D1, D2.
  pose proof (Z.log2_nonneg (shi y)). apply (lor_disj (Z.log2 (shi y) + 1)); try lia.
  - split; [lia|]. destruct (Z.eq_dec (shi y) 0).
    + replace v with 0 by lia. apply Z.pow_pos_nonneg; lia.
    + pose proof (Z.log2_spec (shi y) ltac:(lia)) as [_ L]. rewrite <- Z.add_1_r in L. lia.
  - rewrite E. apply pdvd_sound; auto. apply Z.pow_nonzero; lia.
Qed.

Definition isbit (x : sval) : bool := (0 <=? slo x) && (shi x <=? 1).

(** Exclusive or: with all ones, or selected by a 0/1 value. *)
Definition sxor (s : sst) (x y : sval) : option sval :=
  match const_of (sp x), const_of (sp y) with
  | Some a, Some b => Some (SV (pconst (Z.lxor a b)) (Z.lxor a b) (Z.lxor a b))
  | _, _ =>
      match allones_of s y with
      | Some p =>
          if isword x then
            Some (SV (padd (sp x) (pmul p (psub (pconst (W - 1)) (pscale 2 (sp x))))) 0 (W - 1))
          else None
      | None => None
      end
  end.
Lemma lxor_allones u : 0 <= u < W -> Z.lxor u (W - 1) = W - 1 - u.
Proof.
  intro H. change (W - 1) with (Z.ones 64).
  assert (A : Z.lxor u (Z.ones 64) = Z.ldiff (Z.ones 64) u).
  { apply Z.bits_inj'. intros i Hi. rewrite Z.lxor_spec, Z.ldiff_spec.
    destruct (Z.lt_ge_cases i 64).
    - rewrite Z.ones_spec_low by lia. now destruct (Z.testbit u i).
    - rewrite Z.ones_spec_high by lia.
      replace u with (u mod 2 ^ 64) by (apply Z.mod_small; exact H).
      rewrite (Z.mod_pow2_bits_high u 64 i) by lia. reflexivity. }
  rewrite A. symmetry. apply Z.sub_nocarry_ldiff.
  apply Z.bits_inj'. intros i Hi. rewrite Z.ldiff_spec, Z.bits_0.
  destruct (Z.lt_ge_cases i 64).
  - rewrite Z.ones_spec_low by lia. apply andb_false_r.
  - replace u with (u mod 2 ^ 64) by (apply Z.mod_small; exact H).
    rewrite (Z.mod_pow2_bits_high u 64 i) by lia. reflexivity.
Qed.

Lemma lxor_bound u v : 0 <= u < W -> 0 <= v < W -> 0 <= Z.lxor u v < W.
Proof.
  intros Hu Hv. split; [apply Z.lxor_nonneg; lia|].
  destruct (Z.eq_dec (Z.lxor u v) 0) as [->|N]; [unfold W; lia|].
  change W with (2 ^ 64). apply Z.log2_lt_pow2.
  - pose proof (proj2 (Z.lxor_nonneg u v) ltac:(lia)). lia.
  - eapply Z.le_lt_trans; [apply Z.log2_lxor; lia|].
    destruct (Z.eq_dec u 0) as [->|]; destruct (Z.eq_dec v 0) as [->|]; [reflexivity|..];
    try change (Z.log2 0) with 0.
    + rewrite Z.max_r by apply Z.log2_nonneg. apply Z.log2_lt_pow2; [lia|exact (proj2 Hv)].
    + rewrite Z.max_l by apply Z.log2_nonneg. apply Z.log2_lt_pow2; [lia|exact (proj2 Hu)].
    + apply Z.max_lub_lt; apply Z.log2_lt_pow2; try lia; [exact (proj2 Hu)|exact (proj2 Hv)].
Qed.

Lemma sxor_sound r s st u v x y z :
  Inv r s st -> sv_ok (snext s) r u x -> sv_ok (snext s) r v y -> sxor s x y = Some z ->
  sv_ok (snext s) r (Z.lxor u v) z.
Proof.
  intros HI Hx Hy.
  assert (Y : match allones_of s y with
      | Some p => if isword x then
            Some (SV (padd (sp x) (pmul p (psub (pconst (W - 1)) (pscale 2 (sp x))))) 0 (W - 1))
          else None
      | None => None end = Some z -> sv_ok (snext s) r (Z.lxor u v) z).
  { destruct (allones_of s y) as [p|] eqn:A; try discriminate.
    destruct (isword x) eqn:Wx; try discriminate. intro H; injection H as <-.
    apply (allones_sound r s st v) in A as (A1 & A2 & A3); auto.
    apply (isword_sound (snext s) r u) in Wx; auto.
    assert (B : 0 <= Z.lxor u v < W).
    { apply lxor_bound; auto. rewrite A1. unfold W; destruct A2 as [-> | ->]; lia. }
    unfold sv_ok; cbn [sp slo shi]. split; [|split; [unfold W in *; lia|]].
    - change 18446744073709551615 with (W - 1).
      rewrite peval_padd, peval_pmul, peval_psub, peval_pconst, peval_pscale.
      destruct Hx as (<- & _). rewrite A1. destruct A2 as [-> | ->].
      + rewrite Z.mul_0_r, Z.lxor_0_r. ring.
      + rewrite Z.mul_1_r, lxor_allones by auto. ring.
    - apply poly_lt_padd; [apply Hx|]. apply poly_lt_pmul; auto.
      apply poly_lt_psub; [apply poly_lt_pconst|]. apply poly_lt_pscale, Hx. }
  unfold sxor.
  destruct (const_of (sp x)) as [a|] eqn:Cx; auto. destruct (const_of (sp y)) as [b|] eqn:Cy; auto.
  intro H; injection H as <-. apply (const_of_sound r) in Cx, Cy.
  destruct Hx as (-> & _), Hy as (-> & _). rewrite Cx, Cy. apply sv_ok_const.
Qed.

Definition exec1 (h : nat) (u : uop) (s : sst) : option sst :=
  match u with
  | UMov d a =>
      match sget s a with
      | Some x =>
          let s' := sset d x s in
          Some match a with
               | L l => match PositiveMap.find l (sch s) with
                        | Some c => sset_ch d c s'
                        | None => s'
                        end
               | I _ => s'
               end
      | None => None
      end
  | UAdd d c a b ci =>
      match sget s a, sget s b, sget s ci with
      | Some x, Some y, Some z =>
          if Pos.eqb d c then None else Some (sadc h s false d c x y z (chain_of s false ci))
      | _, _, _ => None
      end
  | USub d c a b bi =>
      match sget s a, sget s b, sget s bi with
      | Some x, Some y, Some z =>
          if Pos.eqb d c then None else Some (sadc h s true d c x y z (chain_of s true bi))
      | _, _, _ => None
      end
  | UAddW d a b =>
      match sget s a, sget s b with
      | Some x, Some y => let '(s, z) := smod s (svtighth h s (svadd x y)) W in Some (sset d z s)
      | _, _ => None
      end
  | USubW d a b =>
      match sget s a, sget s b with
      | Some x, Some y => let '(s, z) := smod s (svtighth h s (svsub x y)) W in Some (sset d z s)
      | _, _ => None
      end
  | UMul hi lo a b =>
      match sget s a, sget s b with
      | Some x, Some y =>
          let v := svmul x y in
          let '(s, q) := sdiv s v W in
          Some (sset hi q (sset lo (smodq v q W) s))
      | _, _ => None
      end
  | UIMul d c a b =>
      match sget s a, sget s b with
      | Some x, Some y =>
          let v := svmul x y in
          if (0 <=? slo x) && (0 <=? slo y) && (shi x <? 9223372036854775808)
             && (shi y <? 9223372036854775808) && (shi v <? 9223372036854775808)
          then Some (sset d v (sset c (SV [] 0 0) s)) else None
      | _, _ => None
      end
  | UMul32 d a b =>
      match sget s a, sget s b with
      | Some x, Some y =>
          let '(s, x') := smod s x W32 in
          let '(s, y') := smod s y W32 in
          Some (sset d (svtighth h s (svmul x' y')) s)
      | _, _ => None
      end
  | UShr d a k =>
      match sget s a with
      | Some x => if k <? 0 then None else let '(s, q) := sdiv s x (2 ^ k) in Some (sset d q s)
      | None => None
      end
  | UShl d a k =>
      match sget s a with
      | Some x => let '(s, z) := smod s (svtighth h s (svscale (2 ^ k) x)) W in Some (sset d z s)
      | None => None
      end
  | UAnd d a b =>
      match sget s a, sget s b with
      | Some x, Some y => match sand s x y with Some (s, z) => Some (sset d z s) | None => None end
      | _, _ => None
      end
  | UAndn d a b =>
      match sget s a, sget s b with
      | Some x, Some y =>
          match sand s (svsub (SV (pconst (W - 1)) (W - 1) (W - 1)) x) y with
          | Some (s, z) => Some (sset d z s) | None => None end
      | _, _ => None
      end
  | UOr d a b =>
      match sget s a, sget s b with
      | Some x, Some y =>
          if disj x y || disj y x then Some (sset d (svadd x y) s) else None
      | _, _ => None
      end
  | UXor d a b =>
      match sget s a, sget s b with
      | Some x, Some y => match sxor s x y with Some z => Some (sset d z s) | None => None end
      | _, _ => None
      end
  | USel d c a b =>
      match sget s c, sget s a, sget s b with
      | Some z, Some x, Some y =>
          if (slo z =? 0) && (shi z =? 0) then Some (sset d x s)
          else if (0 <? slo z) || (shi z <? 0) then Some (sset d y s)
          else if isbit z then
            Some (sset d (SV (padd (sp x) (pmul (sp z) (psub (sp y) (sp x))))
                     (Z.min (slo x) (slo y)) (Z.max (shi x) (shi y))) s)
          else None
      | _, _, _ => None
      end
  | UEqz d a =>
      match sget s a with
      | Some x => if isbit x then Some (sset d (svsub (SV (pconst 1) 1 1) x) s) else None
      | None => None
      end
  end.

(** [hs] gives the effort hint of each micro-operation. *)
Fixpoint exec (hs : list nat) (p : list uop) (s : sst) : option sst :=
  match p with
  | [] => Some s
  | u :: p => match exec1 (hd O hs) u s with Some s => exec (tl hs) p s | None => None end
  end.

Lemma chain_of_sound r s st neg o k : Inv r s st -> chain_of s neg o = Some k ->
  ch_ok (snext s) r (ev st o) k /\ cneg k = neg.
Proof.
  intro HI. destruct o; cbn [chain_of ev]; try discriminate.
  destruct (PositiveMap.find l (sch s)) eqn:E; try discriminate.
  destruct (Bool.eqb (cneg c) neg) eqn:B; try discriminate. intro H; injection H as ->.
  apply eqb_prop in B. split; auto. now apply (inv_ch _ _ _ HI).
Qed.

Lemma sgn64_small x : 0 <= x < 9223372036854775808 -> sgn64 x = x.
Proof. intro H. unfold sgn64. destruct (Z.ltb_spec x 9223372036854775808); lia. Qed.

Lemma set_comm_eq d c v w st l : d <> c -> get (set d v (set c w st)) l = get (set c w (set d v st)) l.
Proof.
  intro N. destruct (Pos.eq_dec l d) as [->|N1].
  - rewrite get_set_same, get_set_other, get_set_same by congruence. reflexivity.
  - rewrite get_set_other by congruence. destruct (Pos.eq_dec l c) as [->|N2].
    + now rewrite !get_set_same.
    + now rewrite !get_set_other by congruence.
Qed.

Lemma exec1_sound h r s st u s' :
  Inv r s st -> exec1 h u s = Some s' ->
  exists r', ext (snext s) r r' /\ (snext s <= snext s')%positive /\ Inv r' s' (step u st).
Proof.
  intros HI.
  assert (Refl : forall s1 st1, snext s1 = snext s -> Inv r s1 st1 ->
     exists r', ext (snext s) r r' /\ (snext s <= snext s1)%positive /\ Inv r' s1 st1).
  { intros s1 st1 E H. exists r. split; [now intro|]. rewrite E. split; [lia|]. auto. }
  assert (Post : forall s1 x v d,
     (exists r', ext (snext s) r r' /\ (snext s <= snext s1)%positive /\ Inv r' s1 st /\
             sv_ok (snext s1) r' v x) ->
     exists r', ext (snext s) r r' /\ (snext s <= snext (sset d x s1))%positive /\
        Inv r' (sset d x s1) (set d v st)).
  { intros s1 x v d (r' & E1 & E2 & E3 & E4). exists r'. split; auto. split; auto. now apply sset_sound. }
  destruct u; cbn [exec1 step].
  - (* UMov *)
    destruct (sget s a) as [x|] eqn:G; try discriminate.
    pose proof (sget_sound _ _ st _ _ HI G) as Hx.
    assert (S1 := sset_sound r s st d _ _ HI Hx).
    intro H; injection H as <-. destruct a as [l|]; [|apply Refl; auto].
    destruct (PositiveMap.find l (sch s)) eqn:F; [|apply Refl; auto].
    apply Refl; auto. apply sset_ch_sound; auto. rewrite get_set_same.
    cbn [ev sset snext]. now apply (inv_ch _ _ _ HI).
  - (* UAdd *)
    destruct (sget s a) as [x|] eqn:Ga; try discriminate.
    destruct (sget s b) as [y|] eqn:Gb; try discriminate.
    destruct (sget s ci) as [z|] eqn:Gc; try discriminate.
    destruct (Pos.eqb d c) eqn:D; try discriminate. intro H; injection H as <-.
    apply (sget_sound r _ st) in Ga, Gb, Gc; auto.
    apply (sadc_sound h r s st false d c (ev st a) (ev st b) (ev st ci)); auto.
    intros k Hk. eapply chain_of_sound; eauto.
  - (* USub *)
    destruct (sget s a) as [x|] eqn:Ga; try discriminate.
    destruct (sget s b) as [y|] eqn:Gb; try discriminate.
    destruct (sget s bi) as [z|] eqn:Gc; try discriminate.
    destruct (Pos.eqb d c) eqn:D; try discriminate. intro H; injection H as <-.
    apply (sget_sound r _ st) in Ga, Gb, Gc; auto.
    apply (sadc_sound h r s st true d c (ev st a) (ev st b) (ev st bi)); auto.
    intros k Hk. eapply chain_of_sound; eauto.
  - (* UAddW *)
    destruct (sget s a) as [x|] eqn:Ga; try discriminate.
    destruct (sget s b) as [y|] eqn:Gb; try discriminate.
    apply (sget_sound r _ st) in Ga, Gb; auto.
    destruct (smod s (svtighth h s (svadd x y)) W) as [s1 z] eqn:E. intro H; injection H as <-.
    apply Post. eapply smod_sound; eauto; [unfold W; lia|]. eapply svtighth_ok; eauto. now apply svadd_ok.
  - (* USubW *)
    destruct (sget s a) as [x|] eqn:Ga; try discriminate.
    destruct (sget s b) as [y|] eqn:Gb; try discriminate.
    apply (sget_sound r _ st) in Ga, Gb; auto.
    destruct (smod s (svtighth h s (svsub x y)) W) as [s1 z] eqn:E. intro H; injection H as <-.
    apply Post. eapply smod_sound; eauto; [unfold W; lia|]. eapply svtighth_ok; eauto. now apply svsub_ok.
  - (* UMul *)
    destruct (sget s a) as [x|] eqn:Ga; try discriminate.
    destruct (sget s b) as [y|] eqn:Gb; try discriminate.
    apply (sget_sound r _ st) in Ga, Gb; auto.
    pose proof (svmul_ok _ _ _ _ _ _ Ga Gb) as Hv.
    destruct (sdiv s (svmul x y) W) as [s1 q] eqn:E. intro H; injection H as <-.
    eapply sdiv_sound in E as (r' & E1 & E2 & E3 & E4); eauto; [|unfold W; lia].
    exists r'. cbn [sset snext]. split; auto. split; auto.
    apply sset_sound; [apply sset_sound; auto|exact E4].
    apply smodq_ok; auto; [unfold W; lia|]. eapply sv_ok_ext; eauto.
  - (* UIMul *)
    destruct (sget s a) as [x|] eqn:Ga; try discriminate.
    destruct (sget s b) as [y|] eqn:Gb; try discriminate.
    apply (sget_sound r _ st) in Ga, Gb; auto.
    pose proof (svmul_ok _ _ _ _ _ _ Ga Gb) as Hv.
    match goal with |- context [if ?c then _ else _] => destruct c eqn:C end; try discriminate.
    repeat (apply andb_prop in C as [C ?]).
    repeat match goal with H : (_ <=? _) = true |- _ => apply Z.leb_le in H
                         | H : (_ <? _) = true |- _ => apply Z.ltb_lt in H end.
    intro H'; injection H' as <-.
    pose proof Ga as (_ & Ba & _). pose proof Gb as (_ & Bb & _). pose proof Hv as (_ & Bv & _).
    assert (0 <= ev st a * ev st b) by nia.
    rewrite !sgn64_small by lia.
    assert (T : (- 9223372036854775808 <=? ev st a * ev st b) && (ev st a * ev st b <? 9223372036854775808) = true).
    { apply andb_true_intro; split; [apply Z.leb_le|apply Z.ltb_lt]; lia. }
    rewrite T, Z.mod_small by (unfold W; lia).
    apply Refl; auto. apply sset_sound; auto. apply sset_sound; auto. apply sv_ok_zero.
  - (* UMul32 *)
    destruct (sget s a) as [x|] eqn:Ga; try discriminate.
    destruct (sget s b) as [y|] eqn:Gb; try discriminate.
    apply (sget_sound r _ st) in Ga, Gb; auto.
    destruct (smod s x W32) as [s1 x'] eqn:E. destruct (smod s1 y W32) as [s2 y'] eqn:F.
    intro H; injection H as <-.
    eapply smod_sound in E as (r1 & E1 & E2 & E3 & E4); eauto; [|unfold W32; lia].
    eapply smod_sound in F as (r2 & F1 & F2 & F3 & F4); eauto; [|unfold W32; lia|eapply sv_ok_ext; eauto].
    apply Post. exists r2. split.
    { intros k Hk. rewrite <- F1 by lia. auto. }
    split; [lia|]. split; auto. eapply svtighth_ok; eauto. apply svmul_ok; auto. eapply sv_ok_ext; eauto.
  - (* UShr *)
    destruct (sget s a) as [x|] eqn:Ga; try discriminate. apply (sget_sound r _ st) in Ga; auto.
    destruct (Z.ltb_spec k 0); try discriminate.
    destruct (sdiv s x (2 ^ k)) as [s1 q] eqn:E. intro H1; injection H1 as <-.
    apply Post. eapply sdiv_sound; eauto. apply Z.pow_pos_nonneg; lia.
  - (* UShl *)
    destruct (sget s a) as [x|] eqn:Ga; try discriminate. apply (sget_sound r _ st) in Ga; auto.
    destruct (smod s (svtighth h s (svscale (2 ^ k) x)) W) as [s1 z] eqn:E. intro H; injection H as <-.
    apply Post. rewrite Z.mul_comm. eapply smod_sound; eauto; [unfold W; lia|].
    eapply svtighth_ok; eauto. now apply svscale_ok.
  - (* UAnd *)
    destruct (sget s a) as [x|] eqn:Ga; try discriminate.
    destruct (sget s b) as [y|] eqn:Gb; try discriminate.
    apply (sget_sound r _ st) in Ga, Gb; auto.
    destruct (sand s x y) as [[s1 z]|] eqn:E; try discriminate. intro H; injection H as <-.
    apply Post. eapply sand_sound; eauto.
  - (* UOr *)
    destruct (sget s a) as [x|] eqn:Ga; try discriminate.
    destruct (sget s b) as [y|] eqn:Gb; try discriminate.
    apply (sget_sound r _ st) in Ga, Gb; auto.
    destruct (disj x y || disj y x) eqn:D; try discriminate. intro H; injection H as <-.
    assert (E : Z.lor (ev st a) (ev st b) = ev st a + ev st b).
    { apply orb_prop in D as [D|D].
      - eapply disj_sound; eauto.
      - rewrite Z.lor_comm, Z.add_comm. eapply disj_sound; eauto. }
    rewrite E. apply Refl; auto. apply sset_sound; auto. now apply svadd_ok.
  - (* UXor *)
    destruct (sget s a) as [x|] eqn:Ga; try discriminate.
    destruct (sget s b) as [y|] eqn:Gb; try discriminate.
    apply (sget_sound r _ st) in Ga, Gb; auto.
    destruct (sxor s x y) as [z|] eqn:E; try discriminate. intro H; injection H as <-.
    apply Refl; auto. apply sset_sound; auto. eapply sxor_sound; eauto.
  - (* UAndn *)
    destruct (sget s a) as [x|] eqn:Ga; try discriminate.
    destruct (sget s b) as [y|] eqn:Gb; try discriminate.
    apply (sget_sound r _ st) in Ga, Gb; auto.
    destruct (sand s (svsub (SV (pconst (W - 1)) (W - 1) (W - 1)) x) y) as [[s1 z]|] eqn:E; try discriminate.
    intro H; injection H as <-.
    apply Post. eapply sand_sound; eauto. apply svsub_ok; auto. apply sv_ok_const.
  - (* USel *)
    destruct (sget s c) as [z|] eqn:Gc; try discriminate.
    destruct (sget s a) as [x|] eqn:Ga; try discriminate.
    destruct (sget s b) as [y|] eqn:Gb; try discriminate.
    apply (sget_sound r _ st) in Ga, Gb, Gc; auto.
    destruct ((slo z =? 0) && (shi z =? 0)) eqn:C1.
    { intro H; injection H as <-. apply andb_prop in C1 as [C1 C2]. apply Z.eqb_eq in C1, C2.
      destruct Gc as (_ & Bc & _). replace (ev st c) with 0 by lia. cbn [Z.eqb].
      apply Refl; auto. now apply sset_sound. }
    destruct ((0 <? slo z) || (shi z <? 0)) eqn:C2.
    { intro H; injection H as <-. destruct Gc as (_ & Bc & _).
      assert (ev st c <> 0). { apply orb_prop in C2 as [C2|C2]; apply Z.ltb_lt in C2; lia. }
      destruct (Z.eqb_spec (ev st c) 0); [contradiction|].
      apply Refl; auto. now apply sset_sound. }
    destruct (isbit z) eqn:B; try discriminate. intro H; injection H as <-.
    apply andb_prop in B as [B1 B2]. apply Z.leb_le in B1, B2.
    apply Refl; auto. apply sset_sound; auto.
    destruct Ga as (A1 & A2 & A3), Gb as (B3 & B4 & B5), Gc as (D1 & D2 & D3).
    unfold sv_ok; cbn [sp slo shi].
    rewrite peval_padd, peval_pmul, peval_psub, <- D1, <- A1, <- B3.
    split; [|split].
    + destruct (Z.eqb_spec (ev st c) 0) as [->|]; [lia|]. replace (ev st c) with 1 by lia. lia.
    + destruct (ev st c =? 0); lia.
    + apply poly_lt_padd; auto. apply poly_lt_pmul; auto. now apply poly_lt_psub.
  - (* UEqz *)
    destruct (sget s a) as [x|] eqn:Ga; try discriminate. apply (sget_sound r _ st) in Ga; auto.
    destruct (isbit x) eqn:B; try discriminate. intro H; injection H as <-.
    apply andb_prop in B as [B1 B2]. apply Z.leb_le in B1, B2.
    apply Refl; auto. apply sset_sound; auto.
    replace (if ev st a =? 0 then 1 else 0) with (1 - ev st a).
    + apply svsub_ok; auto. apply sv_ok_const.
    + destruct Ga as (_ & Ba & _). destruct (Z.eqb_spec (ev st a) 0); lia.
Qed.

Lemma exec_inv p : forall hs r s st s', Inv r s st -> exec hs p s = Some s' ->
  exists r', ext (snext s) r r' /\ (snext s <= snext s')%positive /\ Inv r' s' (run p st).
Proof.
  induction p as [|u p IH]; cbn [exec run]; intros hs r s st s' HI H.
  - injection H as <-. exists r. split; [now intro|]. split; [lia|]. auto.
  - destruct (exec1 (hd O hs) u s) as [s1|] eqn:E; try discriminate.
    eapply exec1_sound in E as (r1 & E1 & E2 & E3); eauto.
    eapply IH in H as (r2 & H1 & H2 & H3); eauto.
    exists r2. split; [|split; [lia|auto]].
    intros a Ha. rewrite E1 by auto. apply H1. lia.
Qed.

(** ** Initial states *)
(** [(l, (a, b))]: location [l] initially holds a value between [a] and [b]. *)
Definition pre := list (loc * (Z * Z)).
Definition pre_ok (P : pre) (st : store) : Prop := Forall (fun x => inI (snd x) (get st (fst x))) P.

Definition maxloc (P : pre) : positive := fold_right (fun x m => Pos.max (fst x) m) 1%positive P.
Definition init (P : pre) : sst :=
  fold_right (fun x s =>
      SST (PositiveMap.add (fst x) (SV (patom (fst x)) (fst (snd x)) (snd (snd x))) (smap s)) (sch s) (snext s)
          (PositiveMap.add (fst x) (snd x) (srng s)) (scon s))
    (SST (PositiveMap.empty _) (PositiveMap.empty _) (Pos.succ (maxloc P)) (PositiveMap.empty _) []) P.

Lemma maxloc_in P x : In x P -> (fst x <= maxloc P)%positive.
Proof.
  induction P as [|y P IH]; cbn [In maxloc fold_right]; [tauto|].
  fold (maxloc P). intros [->|H]; [lia|]. specialize (IH H). lia.
Qed.

Lemma init_inv_aux n P st : pre_ok P st -> (forall x, In x P -> (fst x < n)%positive) ->
  let s := fold_right (fun x s =>
      SST (PositiveMap.add (fst x) (SV (patom (fst x)) (fst (snd x)) (snd (snd x))) (smap s)) (sch s) (snext s)
          (PositiveMap.add (fst x) (snd x) (srng s)) (scon s))
    (SST (PositiveMap.empty _) (PositiveMap.empty _) n (PositiveMap.empty _) []) P in
  Inv (get st) s st /\ snext s = n.
Proof.
  induction P as [|[l h] P IH]; cbn [fold_right]; intros HP Hn.
  - split; auto. constructor; cbn [srng scon smap sch].
    + intros a x H. rewrite PositiveMap.gempty in H. discriminate.
    + constructor.
    + intros a x H. rewrite PositiveMap.gempty in H. discriminate.
    + intros a x H. rewrite PositiveMap.gempty in H. discriminate.
  - inversion HP as [|? ? Hl HP']; subst. cbn [fst snd] in *.
    destruct IH as [IH IHn]; auto. { intros; apply Hn; now right. }
    cbv zeta in IH, IHn. cbn [fst snd]. split; [|exact IHn].
    destruct IH as [I1 I2 I3 I4]. constructor; cbn [srng scon smap sch snext]; auto.
    + intros a x H. destruct (Pos.eq_dec a l) as [->|N].
      * rewrite PositiveMap.gss in H. injection H as <-. exact Hl.
      * rewrite PositiveMap.gso in H by auto. auto.
    + intros a x H. destruct (Pos.eq_dec a l) as [->|N].
      * rewrite PositiveMap.gss in H. injection H as <-.
        unfold sv_ok; cbn [sp slo shi]. rewrite peval_patom. repeat split; try apply Hl.
        apply poly_lt_patom. rewrite IHn. apply (Hn (l, h)). now left.
      * rewrite PositiveMap.gso in H by auto. auto.
Qed.

Definition cons_hold (r : atom -> Z) (cs : list (poly * Z * atom)) : Prop :=
  Forall (fun c => let '(P, m, a) := c in 0 <= peval r P - m * r a < m) cs.

Theorem exec_sound hs P prog s' st :
  exec hs prog (init P) = Some s' -> pre_ok P st ->
  exists r,
    (forall l, (l <= maxloc P)%positive -> r l = get st l) /\
    rng_ok (srng s') r /\ cons_hold r (scon s') /\
    (forall l x, PositiveMap.find l (smap s') = Some x ->
       get (run prog st) l = peval r (sp x) /\ slo x <= get (run prog st) l <= shi x).
Proof.
  intros HE HP.
  destruct (init_inv_aux (Pos.succ (maxloc P)) P st HP) as [HI Hn].
  { intros x Hx. apply Pos.lt_succ_r. now apply maxloc_in. }
  cbv zeta in HI, Hn. fold (init P) in HI, Hn.
  eapply exec_inv in HE as (r & E1 & E2 & E3); eauto.
  exists r. split.
  { intros l Hl. symmetry. apply E1. rewrite Hn. now apply Pos.lt_succ_r. }
  split; [apply E3|]. split.
  { eapply Forall_impl; [|apply (inv_con _ _ _ E3)]. intros [[Q m] a] (H1 & _ & _ & H2).
    rewrite H2. pose proof (Z.mod_pos_bound (peval r Q) m H1). rewrite Z.mod_eq in H by lia. lia. }
  intros l x H. apply (inv_map _ _ _ E3) in H as (H & H' & _). auto.
Qed.

(** ** Search for effort hints (not trusted: any hints are sound) *)
Definition dest (u : uop) : loc :=
  match u with
  | UMov d _ | UAdd d _ _ _ _ | USub d _ _ _ _ | UAddW d _ _ | USubW d _ _ | UMul _ d _ _ | UIMul d _ _ _
  | UMul32 d _ _ | UShr d _ _ | UShl d _ _ | UAnd d _ _ | UOr d _ _ | UXor d _ _ | UAndn d _ _
  | USel d _ _ _ | UEqz d _ => d
  end.
(** [better strict d s t]: [t] is worth more effort than [s]. *)
Definition better (strict : bool) (d : loc) (s t : option sst) : bool :=
  match s, t with
  | _, None => false
  | None, Some _ => true
  | Some s, Some t =>
      Pos.ltb (snext t) (snext s) ||
      (strict && match PositiveMap.find d (smap s), PositiveMap.find d (smap t) with
                 | Some x, Some y => (slo x <? slo y) || (shi y <? shi x)
                 | _, _ => false
                 end)
  end.
Definition hint1 (strict : bool) (u : uop) (s : sst) : nat :=
  let s2 := exec1 2 u s in
  if better strict (dest u) (exec1 0 u s) s2 then
    if better strict (dest u) (exec1 1 u s) s2 then 2%nat else 1%nat
  else O.
Fixpoint hints (strict : bool) (p : list uop) (s : sst) : list nat :=
  match p with
  | [] => []
  | u :: p => let h := hint1 strict u s in
              h :: match exec1 h u s with Some s => hints strict p s | None => [] end
  end.
