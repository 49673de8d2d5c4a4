(** Hashing to edwards25519, in the form used by the property theorems. *)
From Coq Require Import ZArith List Lia.
From Verif Require Import Uop Engine Bytes Primality FpType CurveInst Fp25519Full Fp25519FullProofs SpecScalar ScalarProofs SpecEd SpecH2c EdInst Elligator Edwards255 Edwards255Proofs
  SpecSha2 Sha512 Sign255Proofs HashProps Hash255 Hash255Proofs H2cCase.
Import ListNotations.
Open Scope Z_scope.

Lemma h2c_on_curve st k c0 c1 msg : clean c0 -> clean c1 -> Forall byte msg -> Z.of_nat (length msg) + 1 < 2 ^ 64 ->
  let P := h2c25519_x64 st k c0 c1 msg in
  words 4 (fst P) /\ words 4 (snd P) /\ on255 (val (fst P) mod p_ed255, val (snd P) mod p_ed255) /\ isOnCurve st k P = 1.
Proof.
  intros H0 H1 Hm HL. cbv zeta. destruct (h2c_ok st k c0 c1 msg H0 H1 Hm HL) as (P & _ & On & WX & WY & EX & EY & I1). cbv zeta in WX, WY, EX, EY, I1.
  split; [exact WX|]. split; [exact WY|]. split; [|exact I1]. rewrite EX, EY. destruct P. exact On.
Qed.
Lemma h2c_point st k c0 c1 msg : clean c0 -> clean c1 -> Forall byte msg -> Z.of_nat (length msg) + 1 < 2 ^ 64 ->
  let P := h2c25519_x64 st k c0 c1 msg in
  hashes_to (val (hash_to_field st c0 0 msg)) (val (hash_to_field st c1 1 msg)) (val (fst P) mod p_ed255, val (snd P) mod p_ed255).
Proof.
  intros H0 H1 Hm HL. cbv zeta. destruct (h2c_ok st k c0 c1 msg H0 H1 Hm HL) as (P & Hp & On & WX & WY & EX & EY & I1). cbv zeta in Hp, EX, EY.
  rewrite EX, EY. destruct P. exact Hp.
Qed.
Lemma map_point st k u : words 4 u -> let P := map_to_curve st k u in
  exists Q, maps_to (val u) Q /\ on255 Q /\ reps255 (val (cX P)) (val (cY P)) (val (cZ P)) (val (cT P)) Q.
Proof.
  intro Hu. cbv zeta. destruct (map_ok st k u Hu) as (Q & M & On & _ & _ & _ & _ & R). exists Q. split; [exact M|]. split; [exact On|exact R].
Qed.
(** The specification determines the point *)
Lemma root_unique (t t' : Z) : 0 <= t < p25 -> 0 <= t' < p25 -> (t * t) mod p25519 = (t' * t') mod p25519 ->
  (t = 0 \/ t mod 2 = 1) /\ (t' = 0 \/ t' mod 2 = 1) \/ (t mod 2 = 0 /\ t' mod 2 = 0) -> t = t'.
Proof.
  intros R R' E Par. apply I_mod in E. rewrite !inF_mul in E.
  assert (T : toZ p25 (inF p25 p25_2 t) = t) by (rewrite toZ_inF; apply Z.mod_small; exact R).
  assert (T' : toZ p25 (inF p25 p25_2 t') = t') by (rewrite toZ_inF; apply Z.mod_small; exact R').
  destruct (ll_sq p25 p25_prime p25_2 _ _ E) as [H|H].
  - rewrite <- T, <- T', H. reflexivity.
  - destruct (Fp_dec p25 (inF p25 p25_2 t') (inF p25 p25_2 0)) as [Z0|Z0].
    + assert (t' = 0) by (rewrite <- T', Z0; reflexivity). assert (t = 0) by (rewrite <- T, H, Z0; reflexivity). congruence.
    + pose proof (neg_toZ _ Z0) as N. rewrite <- H, T, T' in N. exfalso.
      assert (P1 : p25 mod 2 = 1) by reflexivity. assert (N' : t + t' = p25) by lia. rewrite <- N' in P1, R, R'. clear - P1 R R' Par.
      rewrite Zplus_mod in P1. destruct Par as [[A B]|[A B]].
      * destruct A as [A|A]; [lia|]. destruct B as [B|B]; [lia|]. rewrite A, B in P1. discriminate P1.
      * rewrite A, B in P1. discriminate P1.
Qed.
Lemma elligator2_unique u P Q : elligator2 u P -> elligator2 u Q -> P = Q.
Proof.
  destruct P as [s t], Q as [s' t']. intros (R & E & A) (R' & E' & A').
  assert (S : s = s' /\ ((t = 0 \/ t mod 2 = 1) /\ (t' = 0 \/ t' mod 2 = 1) \/ (t mod 2 = 0 /\ t' mod 2 = 0))).
  { destruct A as [(Sq & A & B)|(Sq & A & B)], A' as [(Sq' & A' & B')|(Sq' & A' & B')].
    - split; [rewrite A, A'; reflexivity|left; split; assumption].
    - contradiction.
    - contradiction.
    - split; [rewrite A, A'; reflexivity|right; split; assumption]. }
  destruct S as [S Par]. subst s'. f_equal. apply (root_unique t t' R R'); [|exact Par]. exact (eq_trans E (eq_sym E')).
Qed.
Lemma maps_unique u P Q : maps_to u P -> maps_to u Q -> P = Q.
Proof. intros (a & A & E) (b & B & G). rewrite E, G, (elligator2_unique u a b A B). reflexivity. Qed.
Lemma hashes_unique u0 u1 P Q : hashes_to u0 u1 P -> hashes_to u0 u1 Q -> P = Q.
Proof.
  intros (A & B & MA & MB & E) (A' & B' & MA' & MB' & E'). rewrite E, E', (maps_unique u0 A A' MA MA'), (maps_unique u1 B B' MB MB'). reflexivity.
Qed.
(** ** The field elements *)
Lemma field_exact st c prefix msg : clean c -> byte prefix -> Forall byte msg -> Z.of_nat (length msg) + 1 < 2 ^ 64 ->
  let u := hash_to_field st c prefix msg in let h := le_val (SHA512_fips (prefix :: msg)) in
  words 4 u /\ (val u = h mod L25519 \/ val u = 2 ^ 256 - L25519 + h mod L25519) /\ ~ (L25519 <= val u < 2 ^ 256 - L25519).
Proof.
  intros Hc Hp Hm HL. cbv zeta. destruct (field_ok st c prefix msg Hc Hp Hm HL) as [Wu Sc]. cbv zeta in Wu, Sc. split; [exact Wu|].
  set (h := le_val _) in *. clearbody h. set (u := val _) in *. clearbody u. clear - Sc.
  pose proof (Z.mod_pos_bound h L25519 ltac:(reflexivity)) as B. unfold scalar_for in Sc. set (r := h mod L25519) in *. clearbody r.
  destruct Sc as [E|[E _]].
  - split; [left; exact E|lia].
  - split; [right; exact E|lia].
Qed.
Lemma residues : digest_0 mod p_ed255 <> digest_0 mod L25519 mod p_ed255 /\ digest_0 mod p_ed255 <> (2 ^ 256 - L25519 + digest_0 mod L25519) mod p_ed255.
Proof. split; vm_compute; intro H; discriminate H. Qed.
Lemma field_wrong st c : clean c -> val (hash_to_field st c 0 []) mod p_ed255 <> le_val (SHA512_fips [0]) mod p_ed255.
Proof.
  intros Hc. destruct (field_exact st c 0 [] Hc ltac:(unfold byte; lia) (Forall_nil _) ltac:(reflexivity)) as (_ & E & _). cbv zeta in E.
  set (u := val _) in *. clearbody u. rewrite digest_eq in *. destruct residues as [R1 R2]. destruct E as [E|E]; rewrite E; intro H; symmetry in H; contradiction.
Qed.
Lemma decisions st k (P Q : point) : words 4 (fst P) -> words 4 (snd P) -> words 4 (fst Q) -> words 4 (snd Q) ->
  (isOnCurve st k P = 1 <-> on255 (val (fst P) mod p_ed255, val (snd P) mod p_ed255)) /\ (isOnCurve st k P = 0 \/ isOnCurve st k P = 1) /\
  (areEqual st P Q = 1 <-> val (fst P) mod p_ed255 = val (fst Q) mod p_ed255 /\ val (snd P) mod p_ed255 = val (snd Q) mod p_ed255) /\
  (areEqual st P Q = 0 \/ areEqual st P Q = 1).
Proof.
  intros A B C D. destruct (on_curve_iff st k P A B) as [E1 E2]. destruct (equal_iff st P Q A B C D) as [E3 E4].
  split; [exact E1|]. split; [exact E2|]. split; [exact E3|exact E4].
Qed.
(** A message whose two field elements differ, and an exceptional input of the map *)
Lemma clean_case : clean c_zero /\ Forall byte [104; 105] /\ Z.of_nat (length [104; 105]) + 1 < 2 ^ 64.
Proof. split; [exact c_zero_clean|]. split; [repeat constructor; unfold byte; lia|reflexivity]. Qed.
Definition certJ : list (Z * Z) := Eval vm_compute in pow_cert p25 J25519 (bits_of half25) 1.
Lemma runJ : pow_chk mp25 J25519 (bits_of half25) certJ 1 = Some (p25 - 1).
Proof. vm_compute. reflexivity. Qed.
Lemma J_pow : J25519 ^ ((p25 - 1) / 2) mod p25 = p25 - 1.
Proof. rewrite half25_ok. rewrite (chk_pow p25 mp25 J25519 half25 certJ (p25 - 1) mp25_ok); [reflexivity|discriminate|exact runJ]. Qed.
Lemma x1_of_0 : ell_x1 0 = p_ed255 - J25519. Proof. vm_compute. reflexivity. Qed.
Lemma not_square_0 : ~ is_square p_ed255 (g25519 (ell_x1 0)).
Proof.
  rewrite x1_of_0. intros [r E].
  assert (G : g25519 (p_ed255 - J25519) mod p_ed255 = (- J25519) mod p_ed255) by (vm_compute; reflexivity). rewrite G in E. clear G.
  apply (pow_nonsquare p25 p25_prime p25_2 J25519 J_pow (inF p25 p25_2 (r * i25))). rewrite <- inF_mul. apply I_mod.
  replace (r * i25 * (r * i25)) with ((r * r) * (i25 * i25)) by ring. change p25519 with p_ed255. rewrite Zmult_mod, E. vm_compute. reflexivity.
Qed.
Lemma map_exceptional : maps_to 0 ed_zero.
Proof.
  exists (0, 0). split; [|vm_compute; reflexivity]. unfold elligator2. split; [split; [discriminate|reflexivity]|]. split; [reflexivity|].
  right. split; [exact not_square_0|]. split; vm_compute; reflexivity.
Qed.
