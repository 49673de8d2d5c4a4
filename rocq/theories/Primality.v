(** Fermat's little theorem and Pocklington's criterion, with a certificate
    checker for modular powers. *)
From Coq Require Import ZArith Znumtheory List Bool Lia Permutation.
Import ListNotations.
Open Scope Z_scope.

(** ** Fermat *)
Definition prodl (l : list Z) : Z := fold_right Z.mul 1 l.
Definition upto (n : nat) : list Z := map Z.of_nat (seq 1 n).

Lemma prodl_perm l l' : Permutation l l' -> prodl l = prodl l'.
Proof. induction 1; unfold prodl in *; cbn [fold_right]; nia. Qed.
Lemma prodl_map_mul a p l : p <> 0 ->
  prodl (map (fun x => (a * x) mod p) l) mod p = (a ^ Z.of_nat (length l) * prodl l) mod p.
Proof.
  intro Hp. induction l as [|x l IH]; [reflexivity|]. cbn [map length].
  change (prodl (?u :: ?v)) with (u * prodl v). 
  change (prodl (x :: l)) with (x * prodl l).
  rewrite Z.mul_mod, IH, Z.mod_mod, <- Z.mul_mod by auto.
  rewrite Nat2Z.inj_succ, Z.pow_succ_r by lia. f_equal. ring.
Qed.
Lemma in_upto n x : In x (upto n) <-> 1 <= x <= Z.of_nat n.
Proof.
  unfold upto. rewrite in_map_iff. split.
  - intros (k & <- & H). apply in_seq in H. lia.
  - intro H. exists (Z.to_nat x). split; [lia|]. apply in_seq. lia.
Qed.
Lemma upto_nodup n : NoDup (upto n).
Proof. unfold upto. apply FinFun.Injective_map_NoDup; [intros x y; lia|apply seq_NoDup]. Qed.

Theorem fermat p a : prime p -> ~ (p | a) -> a ^ (p - 1) mod p = 1.
Proof.
  intros Pp Ha. pose proof (prime_ge_2 p Pp) as P2.
  assert (Rp : rel_prime a p) by (apply rel_prime_sym, prime_rel_prime; auto).
  set (n := Z.to_nat (p - 1)). assert (En : Z.of_nat n = p - 1) by (unfold n; lia).
  set (f := fun x => (a * x) mod p).
  assert (Cancel : forall x y, (p | a * x - a * y) -> (p | x - y)).
  { intros x y H. replace (a * x - a * y) with (a * (x - y)) in H by ring.
    apply prime_mult in H as [H|H]; auto. contradiction. }
  assert (NZ : forall x, 1 <= x <= p - 1 -> ~ (p | x)).
  { intros x Hx D. apply Z.divide_pos_le in D; lia. }
  assert (Perm : Permutation (map f (upto n)) (upto n)).
  { apply NoDup_Permutation_bis.
    - assert (G : forall l, NoDup l -> (forall x, In x l -> 1 <= x <= p - 1) -> NoDup (map f l)).
      { induction 1 as [|x l Hx Hl IH]; intro B; cbn [map]; constructor.
        - intro Hin. apply in_map_iff in Hin as (y & Ey & Hy). apply Hx.
          assert (D : (p | x - y)).
          { apply Cancel. apply Z.mod_divide; [lia|].
            rewrite Zminus_mod. fold (f x) (f y). rewrite Ey, Z.sub_diag. apply Z.mod_0_l. lia. }
          pose proof (B x (or_introl eq_refl)). pose proof (B y (or_intror Hy)).
          assert (x - y = 0); [|replace x with y by lia; auto].
          apply Z.divide_abs_l in D. destruct (Z.eq_dec (x - y) 0); auto.
          apply Z.divide_abs_l, Z.divide_abs_r, Z.divide_pos_le in D; lia.
        - apply IH. intros z Hz. apply B. now right. }
      apply G; [apply upto_nodup|]. intros x Hx. apply in_upto in Hx. lia.
    - rewrite map_length. lia.
    - intros x Hx. apply in_map_iff in Hx as (y & <- & Hy). apply in_upto in Hy. apply in_upto.
      unfold f. pose proof (Z.mod_pos_bound (a * y) p ltac:(lia)).
      assert (~ (p | a * y)).
      { intro D. apply prime_mult in D as [D|D]; auto. apply (NZ y); auto. lia. }
      assert ((a * y) mod p <> 0). { intro E. apply H0. apply Z.mod_divide; lia. } lia. }
  pose proof (prodl_perm _ _ Perm) as E.
  pose proof (prodl_map_mul a p (upto n) ltac:(lia)) as E2. fold f in E2. rewrite E in E2.
  assert (Ln : Z.of_nat (length (upto n)) = p - 1).
  { unfold upto. rewrite map_length, seq_length. auto. }
  rewrite Ln in E2.
  assert (ND : ~ (p | prodl (upto n))).
  { assert (G : forall l, (forall x, In x l -> 1 <= x <= p - 1) -> ~ (p | prodl l)).
    { induction l as [|x l IH]; intros B D.
      - change (p | 1) in D. apply Z.divide_1_r_nonneg in D; lia.
      - change (p | x * prodl l) in D. apply prime_mult in D as [D|D]; auto.
        + apply (NZ x); auto. apply B. now left.
        + apply IH; auto. intros z Hz. apply B. now right. }
    apply G. intros x Hx. apply in_upto in Hx. lia. }
  assert (D : (p | prodl (upto n) * (a ^ (p - 1) - 1))).
  { apply Z.mod_divide; [lia|].
    replace (prodl (upto n) * (a ^ (p - 1) - 1)) with (a ^ (p - 1) * prodl (upto n) - prodl (upto n)) by ring.
    rewrite Zminus_mod, <- E2, Z.sub_diag. apply Z.mod_0_l. lia. }
  apply prime_mult in D as [D|D]; auto; [contradiction|].
  replace (a ^ (p - 1)) with (1 + (a ^ (p - 1) - 1)) by ring.
  destruct D as [k ->]. rewrite Z.mod_add by lia. apply Z.mod_1_l. lia.
Qed.

(** ** Exponents giving 1 are closed under gcd *)
Lemma pow_one_sub a r n m : 1 < r -> 0 <= n -> 0 <= m -> a ^ (n + m) mod r = 1 -> a ^ m mod r = 1 -> a ^ n mod r = 1.
Proof.
  intros Hr Hn Hm H1 H2. rewrite Z.pow_add_r, Z.mul_mod, H2, Z.mul_1_r, Z.mod_mod in H1 by lia. exact H1.
Qed.
Lemma pow_one_mul a r n k : 1 < r -> 0 <= n -> 0 <= k -> a ^ n mod r = 1 -> a ^ (k * n) mod r = 1.
Proof.
  intros Hr Hn Hk H. rewrite Z.mul_comm, Z.pow_mul_r by lia.
  apply (natlike_ind (fun k => (a ^ n) ^ k mod r = 1)); auto.
  - rewrite Z.pow_0_r. apply Z.mod_1_l. lia.
  - intros x Hx IH. rewrite Z.pow_succ_r, Z.mul_mod, H, IH by lia. apply Z.mod_1_l. lia.
Qed.
Lemma pow_one_gcd a r n m : 1 < r -> 0 <= n -> 0 <= m -> a ^ n mod r = 1 -> a ^ m mod r = 1 -> a ^ (Z.gcd n m) mod r = 1.
Proof.
  intros Hr. revert n m.
  assert (G : forall k n m, (Z.to_nat m < k)%nat -> 0 <= n -> 0 <= m ->
            a ^ n mod r = 1 -> a ^ m mod r = 1 -> a ^ (Z.gcd n m) mod r = 1).
  { induction k; intros n m Hk Hn Hm En Em; [lia|].
    destruct (Z.eq_dec m 0) as [->|Nm].
    - rewrite Z.gcd_0_r, Z.abs_eq by auto. auto.
    - rewrite (Z.gcd_comm n m), <- (Z.gcd_mod n m) by auto. rewrite Z.gcd_comm.
      pose proof (Z.mod_pos_bound n m ltac:(lia)) as B.
      apply IHk; auto; try lia.
      apply (pow_one_sub a r (n mod m) ((n / m) * m)); auto; try lia.
      + apply Z.mul_nonneg_nonneg; auto. apply Z.div_pos; lia.
      + rewrite Z.add_comm, (Z.mul_comm (n / m)). rewrite <- Z.div_mod by auto. auto.
      + apply pow_one_mul; auto. apply Z.div_pos; lia. }
  intros n m. apply (G (S (Z.to_nat m))). lia.
Qed.

(** ** Every composite number has a prime divisor at most its square root *)
Lemma prime_divisor n : 1 < n -> exists r, prime r /\ (r | n).
Proof.
  intro H. assert (0 <= n) by lia. revert H. pattern n. apply Z_lt_induction; auto. clear n H0.
  intros n IH Hn. destruct (prime_dec n) as [P|NP]; [exists n; split; auto; apply Z.divide_refl|].
  apply not_prime_divide in NP as (m & Hm & D); [|lia].
  destruct (IH m) as (r & R1 & R2); try lia. exists r. split; auto. eapply Z.divide_trans; eauto.
Qed.
Lemma small_prime_divisor n : 1 < n -> ~ prime n -> exists r, prime r /\ (r | n) /\ r * r <= n.
Proof.
  intros H NP. apply not_prime_divide in NP as (m & Hm & [k Hk]); [|lia].
  assert (1 < k < n) by nia.
  destruct (Z.le_gt_cases m k).
  - destruct (prime_divisor m) as (r & R1 & R2); [lia|]. exists r. split; auto. split.
    + eapply Z.divide_trans; eauto. exists k. lia.
    + pose proof (Z.divide_pos_le r m ltac:(lia) R2). pose proof (prime_ge_2 r R1). nia.
  - destruct (prime_divisor k) as (r & R1 & R2); [lia|]. exists r. split; auto. split.
    + eapply Z.divide_trans; eauto. exists m. lia.
    + pose proof (Z.divide_pos_le r k ltac:(lia) R2). pose proof (prime_ge_2 r R1). nia.
Qed.

(** ** Pocklington: the primes of [qs] divide N-1; their product exceeds the root of N. *)
Definition coprime_pow (a m N : Z) : Prop := exists u v, (a ^ m - 1) * u = 1 + N * v.
Theorem pocklington N a qs :
  1 < N -> a ^ (N - 1) mod N = 1 -> NoDup qs ->
  Forall (fun q => prime q /\ (q | N - 1) /\ coprime_pow a ((N - 1) / q) N) qs ->
  N < (prodl qs + 1) * (prodl qs + 1) -> prime N.
Proof.
  intros HN E ND H B. destruct (prime_dec N) as [|NP]; auto. exfalso.
  destruct (small_prime_divisor N HN NP) as (r & R1 & R2 & R3).
  pose proof (prime_ge_2 r R1) as R4.
  assert (Er : a ^ (N - 1) mod r = 1).
  { destruct R2 as [k Hk]. pose proof (Z.div_mod (a ^ (N - 1)) N ltac:(lia)) as DM. rewrite E in DM.
    rewrite DM, Hk at 1.
    replace (k * r * (a ^ (N - 1) / N) + 1) with (1 + (k * (a ^ (N - 1) / N)) * r) by ring.
    rewrite Z.mod_add by lia. apply Z.mod_1_l. lia. }
  assert (Ra : ~ (r | a)).
  { intros [k ->]. replace (N - 1) with (Z.succ (N - 2)) in Er by lia. rewrite Z.pow_succ_r in Er by lia.
    replace (k * r * (k * r) ^ (N - 2)) with ((k * (k * r) ^ (N - 2)) * r) in Er by ring.
    rewrite Z.mod_mul in Er by lia. lia. }
  pose proof (fermat r a R1 Ra) as F.
  assert (Q : Forall (fun q => prime q /\ (q | r - 1)) qs).
  { eapply Forall_impl; [|exact H]. intros q (Q1 & Q2 & u & v & Q3). split; auto.
    destruct (Zdivide_dec q (r - 1)) as [|ND']; auto. exfalso.
    pose proof (prime_ge_2 q Q1).
    set (g := Z.gcd (N - 1) (r - 1)).
    assert (Hg : a ^ g mod r = 1) by (apply pow_one_gcd; auto; lia).
    assert (G0 : 0 <= g) by apply Z.gcd_nonneg.
    assert (Gq : rel_prime g q).
    { apply rel_prime_sym. apply prime_rel_prime; auto. intro D. apply ND'. eapply Z.divide_trans; eauto.
      apply Z.gcd_divide_r. }
    assert (Gm : (g | (N - 1) / q)).
    { apply Gauss with q; auto. destruct Q2 as [m Hm]. rewrite Hm, Z.div_mul by lia.
      replace (q * m) with (N - 1) by lia. apply Z.gcd_divide_l. }
    destruct Gm as [k Hk].
    assert (K0 : 0 <= k).
    { destruct (Z.le_gt_cases 0 k); auto. assert (0 <= (N - 1) / q) by (apply Z.div_pos; lia).
      assert (g = 0 \/ 0 < g) as [Z0|Z0] by lia; [|nia].
      apply Z.gcd_eq_0_l in Z0. lia. }
    assert (P1 : a ^ ((N - 1) / q) mod r = 1).
    { rewrite Hk. apply pow_one_mul; auto; lia. }
    assert (D : (r | 1)).
    { replace 1 with ((a ^ ((N - 1) / q) - 1) * u - N * v) by lia. apply Z.divide_sub_r.
      - apply Z.divide_mul_l. apply Z.mod_divide; [lia|]. rewrite Zminus_mod, P1, Z.mod_1_l by lia. reflexivity.
      - now apply Z.divide_mul_l. }
    apply Z.divide_1_r_nonneg in D; lia. }
  assert (D : (prodl qs | r - 1)).
  { clear - ND Q. induction qs as [|q qs IH]; [exists (r - 1); cbn; ring|].
    inversion Q as [|? ? [Q1 Q2] Q3]; inversion ND as [|? ? N1 N2]; subst.
    specialize (IH N2 Q3). change (q * prodl qs | r - 1).
    destruct IH as [k Hk]. rewrite Hk in Q2. 
    assert (C : (q | k)).
    { apply Gauss with (prodl qs). { now rewrite Z.mul_comm. }
      apply prime_rel_prime; auto. clear - Q1 Q3 N1.
      induction qs as [|x qs IH]; intro D.
      - change (q | 1) in D. pose proof (prime_ge_2 q Q1). apply Z.divide_1_r_nonneg in D; lia.
      - change (q | x * prodl qs) in D. inversion Q3 as [|? ? [X1 X2] X3]; subst.
        apply prime_mult in D as [D|D]; auto.
        + apply prime_div_prime in D; auto. subst. apply N1. now left.
        + apply IH; auto. intro Hin. apply N1. now right. }
    destruct C as [j Hj]. exists j. rewrite Hk, Hj. ring. }
  assert (prodl qs <= r - 1) by (apply Z.divide_pos_le; auto; lia). 
  assert (0 <= prodl qs).
  { clear - H. induction H as [|q qs (Q1 & _) _ IH]; [cbn; lia|]. change (0 <= q * prodl qs).
    pose proof (prime_ge_2 q Q1). nia. }
  nia.
Qed.

(** ** Certified modular powers *)
(** [sh n q] is [q * 2^n] for nonnegative [q]. *)
Definition sh (n : positive) (q : Z) : Z := match q with Zpos x => Zpos (Pos.iter xO x n) | _ => 0 end.
Lemma sh_eq n q : 0 <= q -> sh n q = q * 2 ^ Zpos n.
Proof.
  intro H. destruct q as [|x|x]; cbn [sh]; [lia| |lia]. clear H.
  revert x. induction n using Pos.peano_ind; intro x.
  - change (Zpos (x~0) = Zpos x * 2). lia.
  - rewrite Pos.iter_succ, Pos2Z.inj_succ, Z.pow_succ_r by lia.
    change (Zpos (Pos.iter xO x n)~0) with (2 * Zpos (Pos.iter xO x n)). rewrite IHn. ring.
Qed.

(** [mN q] is [N * q].  The certificate lists quotient and remainder of each
    squaring, and of each multiplication by the base. *)
Fixpoint pow_chk (mN : Z -> Z) (b : Z) (bits : list bool) (cert : list (Z * Z)) (x : Z) : option Z :=
  match bits, cert with
  | [], _ => Some x
  | false :: bits, (q, r) :: cert =>
      if (0 <=? q) && (Z.square x =? mN q + r) then pow_chk mN b bits cert r else None
  | true :: bits, (q, r) :: (q', r') :: cert =>
      if (0 <=? q) && (Z.square x =? mN q + r) && (0 <=? q') && (r * b =? mN q' + r')
      then pow_chk mN b bits cert r' else None
  | _, _ => None
  end.
Fixpoint pow_cert (N : Z) (b : Z) (bits : list bool) (x : Z) : list (Z * Z) :=
  match bits with
  | [] => []
  | c :: bits =>
      let s := x * x in let q := s / N in let r := s - N * q in
      if c : bool then let t := r * b in let q' := t / N in let r' := t - N * q' in
             (q, r) :: (q', r') :: pow_cert N b bits r'
      else (q, r) :: pow_cert N b bits r
  end.
Fixpoint bits_val (bits : list bool) (acc : Z) : Z :=
  match bits with [] => acc | b :: bits => bits_val bits (2 * acc + (if b then 1 else 0)) end.
Fixpoint bits_of (p : positive) : list bool :=
  match p with xH => [true] | xO p => bits_of p ++ [false] | xI p => bits_of p ++ [true] end.
Lemma bits_val_app l l' acc : bits_val (l ++ l') acc = bits_val l' (bits_val l acc).
Proof. revert acc; induction l; intro acc; cbn [bits_val app]; auto. Qed.
Lemma bits_of_val p : bits_val (bits_of p) 0 = Zpos p.
Proof.
  induction p; cbn [bits_of]; try reflexivity; rewrite bits_val_app, IHp; cbn [bits_val]; lia.
Qed.

Lemma qr_mod N q r x : N <> 0 -> x = N * q + r -> r mod N = x mod N.
Proof. intros HN ->. now rewrite Z.add_comm, Z.mul_comm, Z.mod_add. Qed.
Lemma pow_chk_sound N mN b bits : (forall q, 0 <= q -> mN q = N * q) -> N <> 0 ->
  forall cert x e y, 0 <= e -> pow_chk mN b bits cert x = Some y -> x mod N = b ^ e mod N ->
  y mod N = b ^ (bits_val bits e) mod N.
Proof.
  intros HN N0. induction bits as [|[|] bits IH]; intros cert x e y He.
  - cbn [pow_chk bits_val]. now intros [= ->].
  - destruct cert as [|[q r] [|[q' r'] cert]]; cbn [pow_chk bits_val]; try discriminate.
    destruct ((0 <=? q) && _ && _ && _) eqn:C; try discriminate.
    apply andb_prop in C as [C C4]. apply andb_prop in C as [C C3]. apply andb_prop in C as [C1 C2].
    apply Z.leb_le in C1, C3. apply Z.eqb_eq in C2, C4. rewrite HN in C2, C4 by auto.
    apply qr_mod in C2, C4; auto.
    intros H Hx. eapply IH in H; eauto; [lia|].
    assert (S2 : (x * x) mod N = b ^ (2 * e) mod N).
    { rewrite Z.mul_mod, Hx, <- Z.mul_mod by auto. f_equal. rewrite <- Z.pow_add_r by auto. f_equal. lia. }
    rewrite C4, Z.mul_mod, C2, Z.square_spec, S2, <- Z.mul_mod by auto.
    f_equal. rewrite Z.pow_add_r, Z.pow_1_r by lia. reflexivity.
  - destruct cert as [|[q r] cert]; cbn [pow_chk bits_val]; try discriminate.
    destruct ((0 <=? q) && _) eqn:C; try discriminate. apply andb_prop in C as [C1 C2].
    apply Z.leb_le in C1. apply Z.eqb_eq in C2. rewrite HN in C2 by auto. apply qr_mod in C2; auto.
    intros H Hx. eapply IH in H; eauto; [lia|].
    rewrite C2, Z.square_spec, Z.mul_mod, Hx, <- Z.mul_mod by auto. f_equal.
    rewrite <- Z.pow_add_r by auto. f_equal. lia.
Qed.

(** [powm N a e y]: y represents a^e modulo N. *)
Definition powm (N a e y : Z) : Prop := 0 <= e /\ y mod N = a ^ e mod N.
Lemma powm_1 N a : N <> 0 -> powm N a 1 a.
Proof. intro. split; [lia|]. now rewrite Z.pow_1_r. Qed.
Lemma powm_step N mN a e y f z cert : (forall q, 0 <= q -> mN q = N * q) -> N <> 0 ->
  powm N a e y -> pow_chk mN y (bits_of f) cert 1 = Some z -> powm N a (e * Zpos f) z.
Proof.
  intros HN N0 [He Hy] H. split; [lia|].
  apply (pow_chk_sound N mN y (bits_of f) HN N0 cert 1 0 z) in H; [|lia|reflexivity].
  rewrite H, bits_of_val, Z.pow_mul_r by lia.
  clear - Hy N0. induction f using Pos.peano_ind.
  - now rewrite !Z.pow_1_r.
  - rewrite Pos2Z.inj_succ, !Z.pow_succ_r, Z.mul_mod, Hy, IHf, <- Z.mul_mod by lia. reflexivity.
Qed.

(** Fermat-type test data: a table of powers [(i, f)] (entry number i raised to f). *)
Fixpoint table_chk (mN : Z -> Z) (steps : list (nat * positive)) (certs : list (list (Z * Z)))
  (t : list (Z * Z)) : option (list (Z * Z)) :=
  match steps, certs with
  | [], _ => Some t
  | (i, f) :: steps, c :: certs =>
      match nth_error t i with
      | Some (e, y) => match pow_chk mN y (bits_of f) c 1 with
                       | Some z => table_chk mN steps certs (t ++ [(e * Zpos f, z)])
                       | None => None
                       end
      | None => None
      end
  | _, _ => None
  end.
Fixpoint table_cert (N : Z) (steps : list (nat * positive)) (t : list Z) : list (list (Z * Z)) :=
  match steps with
  | [] => []
  | (i, f) :: steps =>
      let c := pow_cert N (nth i t 0) (bits_of f) 1 in
      c :: table_cert N steps (t ++ [snd (last c (0, 0))])
  end.
Definition poc_chk (N : Z) (mN : Z -> Z) (a : Z) (steps : list (nat * positive)) (certs : list (list (Z * Z)))
  (qs : list (Z * nat * Z * Z)) : bool :=
  (1 <? N) &&
  match table_chk mN steps certs [(1, a)] with
  | Some t =>
      (match last t (0, 0) with (e, y) => (e =? N - 1) && (y =? 1) end)
      && forallb (fun x => let '(q, i, u, v) := x in
            match nth_error t i with
            | Some (e, y) => (e * q =? N - 1) && (0 <=? v) && ((y - 1) * u =? 1 + mN v) && (1 <? q)
            | None => false
            end) qs
      && (let F := prodl (map (fun x => fst (fst (fst x))) qs) in N <? (F + 1) * (F + 1))
  | None => false
  end.
Fixpoint nodupb (l : list Z) : bool :=
  match l with [] => true | x :: l => negb (existsb (Z.eqb x) l) && nodupb l end.
Lemma nodupb_ok l : nodupb l = true -> NoDup l.
Proof.
  induction l as [|x l IH]; cbn [nodupb]; intro H; constructor; apply andb_prop in H as [H1 H2]; auto.
  intro Hin. apply negb_true_iff in H1. rewrite <- not_true_iff_false in H1. apply H1.
  apply existsb_exists. exists x. split; auto. apply Z.eqb_refl.
Qed.
Lemma table_chk_sound N mN a : (forall q, 0 <= q -> mN q = N * q) -> N <> 0 -> forall steps certs t t',
  Forall (fun x => powm N a (fst x) (snd x)) t -> table_chk mN steps certs t = Some t' ->
  Forall (fun x => powm N a (fst x) (snd x)) t'.
Proof.
  intros HN N0. induction steps as [|[i f] steps IH]; intros certs t t' Ht; cbn [table_chk].
  - now intros [= <-].
  - destruct certs as [|c certs]; try discriminate.
    destruct (nth_error t i) as [[e y]|] eqn:E; try discriminate.
    destruct (pow_chk mN y (bits_of f) c 1) as [z|] eqn:P; try discriminate.
    apply IH. apply Forall_app. split; auto. constructor; auto. cbn [fst snd].
    rewrite Forall_forall in Ht. specialize (Ht _ (nth_error_In _ _ E)). cbn [fst snd] in Ht.
    eapply powm_step; eauto.
Qed.
Theorem poc_sound N mN a steps certs qs :
  (forall q, 0 <= q -> mN q = N * q) ->
  poc_chk N mN a steps certs qs = true ->
  nodupb (map (fun x => fst (fst (fst x))) qs) = true ->
  Forall prime (map (fun x => fst (fst (fst x))) qs) -> prime N.
Proof.
  intros HN H ND HP. unfold poc_chk in H. apply andb_prop in H as [H1 H]. apply Z.ltb_lt in H1.
  assert (N0 : N <> 0) by lia.
  destruct (table_chk mN steps certs [(1, a)]) as [t|] eqn:T; try discriminate.
  apply (table_chk_sound N mN a HN N0) in T.
  2:{ constructor; auto. now apply powm_1. }
  apply andb_prop in H as [H H4]. apply andb_prop in H as [H2 H3]. apply Z.ltb_lt in H4.
  assert (Last : Forall (fun x => powm N a (fst x) (snd x)) [last t (0, 0)] \/ t = []).
  { destruct t as [|x t]; auto. left. constructor; auto.
    rewrite Forall_forall in T. apply T. clear. revert x; induction t as [|y t IH]; intro x; [now left|].
    right. apply IH. }
  apply (pocklington N a (map (fun x => fst (fst (fst x))) qs)); auto.
  - destruct Last as [Last|Nil].
    2:{ subst t. cbn [last] in H2. rewrite andb_false_r in H2. discriminate. }
    destruct (last t (0, 0)) as [e y]. apply andb_prop in H2 as [E Y].
    apply Z.eqb_eq in E, Y. subst.
    inversion Last as [|? ? [_ P] _]; subst. cbn [fst snd] in P. rewrite <- P. apply Z.mod_1_l. lia.
  - now apply nodupb_ok.
  - rewrite Forall_forall in T. clear - H3 HP HN T N0 H1. induction qs as [|[[[q i] u] v] qs IH]; cbn [map]; constructor.
    + cbn [forallb fst map] in *. apply andb_prop in H3 as [H3 _]. inversion HP; subst. split; auto.
      destruct (nth_error t i) as [[e y]|] eqn:E; try discriminate.
      apply andb_prop in H3 as [H3 Q1]. apply andb_prop in H3 as [H3 C]. apply andb_prop in H3 as [E1 V].
      apply Z.eqb_eq in E1, C. apply Z.leb_le in V. apply Z.ltb_lt in Q1. rewrite HN in C by auto.
      split. { exists e. lia. }
      assert (Ee : (N - 1) / q = e) by (rewrite <- E1; apply Z.div_mul; lia). rewrite Ee.
      destruct (T _ (nth_error_In _ _ E)) as [P0 P]. cbn [fst snd] in P, P0.
      pose proof (Z.div_mod y N N0) as D1. pose proof (Z.div_mod (a ^ e) N N0) as D2. rewrite P in D1.
      exists u. exists (v + (a ^ e / N - y / N) * u).
      replace (a ^ e) with (y + N * (a ^ e / N - y / N)) at 1 by lia.
      replace ((y + N * (a ^ e / N - y / N) - 1) * u) with ((y - 1) * u + N * ((a ^ e / N - y / N) * u)) by ring.
      rewrite C. ring.
    + cbn [forallb map] in *. apply andb_prop in H3 as [_ H3]. inversion HP; subst. apply IH; auto.
Qed.

(** Trial division. *)
Fixpoint no_div (fuel : nat) (d n : Z) : bool :=
  match fuel with
  | O => false
  | S fuel => if n <? d * d then true else negb (n mod d =? 0) && no_div fuel (d + 1) n
  end.
Lemma no_div_sound fuel : forall d n, 1 < d -> no_div fuel d n = true ->
  (forall r, 1 < r -> r < d -> ~ (r | n)) -> forall r, 1 < r -> r * r <= n -> ~ (r | n).
Proof.
  induction fuel; intros d n Hd H B r Hr Hr2; cbn [no_div] in H; try discriminate.
  destruct (Z.ltb_spec n (d * d)); [apply B; auto; nia|].
  apply andb_prop in H as [H1 H2]. apply negb_true_iff, Z.eqb_neq in H1.
  apply (IHfuel (d + 1) n); auto; [lia|]. intros r' Hr' Hd'.
  destruct (Z.eq_dec r' d) as [->|N]; [|apply B; lia].
  intro D. apply H1. apply Z.mod_divide; auto. lia.
Qed.
Lemma trial_prime fuel n : 1 < n -> no_div fuel 2 n = true -> prime n.
Proof.
  intros Hn H. destruct (prime_dec n) as [|NP]; auto. exfalso.
  destruct (small_prime_divisor n Hn NP) as (r & R1 & R2 & R3). pose proof (prime_ge_2 r R1).
  apply (no_div_sound fuel 2 n ltac:(lia) H) with r; auto; try lia.
Qed.
