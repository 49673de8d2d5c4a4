(** A key, a message and a signature whose verification meets all hypotheses of the round trip. *)
From Coq Require Import ZArith List Bool Lia FMapPositive.
From Verif Require Import Uop X86 Engine Bytes Fp25519Full Fp25519FullProofs Fp25519Red Fp25519RedProofs Spec SpecVec Lanes RedTac RedProps SpecScalar Scalar448Proofs Scalar ScalarProps SpecEd EdInst EdCert
  Edwards255 Edwards255Proofs Verify255 Verify255Proofs SpecRecode Recode RecodeProofs Table255 TableProofs255 SpecEdVec Fixed255 Fixed255Proofs FixedProps EdProps
  Decode255 Decode255Proofs VerifyMulProofs VerifyCase Sign255 SpecSign Sign255Proofs SignCase.
Import ListNotations.
Open Scope Z_scope.
Notation B := B_ed255.
Notation "k ** P" := (mul255 k P) (at level 40).

Definition le10 (c m : list Z) : bool := forallb (fun i => nth i (lane 4 10 0 m) 0 <=? nth i (lane 4 10 1 m) 0 + nth i c 0) (seq 0 10).
Lemma le10_ok c m : le10 c m = true -> forall i, (i < 10)%nat -> nth i (lane 4 10 0 m) 0 <= nth i (lane 4 10 1 m) 0 + nth i c 0.
Proof. intros E i Hi. apply Z.leb_le. apply (proj1 (forallb_forall _ _) E). apply in_seq. lia. Qed.
Definition bf (f : list Z -> list Z -> list Z) (c : list Z) (qe : list Z * list Z) : bool := le10 c (f (fst qe) (snd qe)).
Lemma bf_gen f c l : forallb (bf f c) l = true -> forall q e, In (q, e) l -> forall i, (i < 10)%nat -> nth i (lane 4 10 0 (f q e)) 0 <= nth i (lane 4 10 1 (f q e)) 0 + nth i c 0.
Proof. intros F q e Hin. apply (proj1 (forallb_forall _ l) F) in Hin. exact (le10_ok c _ Hin). Qed.
Lemma bf_ok l : forallb (bf (mix_ABCD st0) limbs_2_34P) l = true -> forall q e, In (q, e) l -> borrow_free st0 q e.
Proof. exact (bf_gen (mix_ABCD st0) limbs_2_34P l). Qed.
Definition s3 : list Z := 3 :: repeat 0 31.
Definition h1 : list Z := 1 :: repeat 0 31.
Lemma good1 : forallb (bf (mix_ABCD st0) limbs_2_34P) (mixed_additions st0 s3 h1 PA1) = true. Proof. vm_compute. reflexivity. Qed.
Lemma good2 : forallb (bf (mix_ABCD st0) limbs_2_34P) (mixed_additions st0 s3 h1 PA2) = true. Proof. vm_compute. reflexivity. Qed.
(** A hash with secret scalar 6 l - 302, nonce 305 and challenge 1 *)
Definition Hg (x : list Z) : list Z := bytes_n 64 (if (length x =? 32)%nat then a_key else if (length x =? 33)%nat then 305 else if (length x =? 65)%nat then 1 else 0).
Lemma Hg64 x : bytes 64 (Hg x). Proof. apply bytes_n_ok. Qed.
Lemma secret_g : secret Hg sk0 = a_key. Proof. vm_compute. reflexivity. Qed.
Lemma nonce_g : nonce Hg Pure sk0 M0 = 305. Proof. vm_compute. reflexivity. Qed.
Lemma challenge_g R pk : length R = 32%nat -> length pk = 32%nat -> Hg (challenge_input Hg Pure R pk M0) = bytes_n 64 1.
Proof.
  intros L1 L2. unfold Hg. replace (length (challenge_input _ _ R pk M0)) with 65%nat; [reflexivity|].
  unfold challenge_input. cbn [dom PH]. rewrite !app_length, L1, L2. reflexivity.
Qed.
Lemma one_reduced : reduced_digest st0 (bytes_n 64 1) = h1. Proof. vm_compute. reflexivity. Qed.
Lemma s3_bytes : bytes 32 s3.
Proof. split; [reflexivity|]. unfold s3. cbn [repeat]. repeat apply Forall_cons; try (split; [discriminate|reflexivity]); apply Forall_nil. Qed.
Lemma pure_additions st k H M pk sig : additions_with st k H Pure M pk sig =
  mixed_additions st (skipn 32 sig) (reduced_digest st (H (challenge_input H Pure (firstn 32 sig) pk M))) (snd (fst (point_decoding st k pk))).
Proof. exact (additions_with_body st k H Pure M pk sig (Nat.le_0_l 255)). Qed.
Theorem good_case k sky K0 S0 pk : length K0 = 67%nat -> length S0 = 67%nat -> public Hg sk0 pk ->
  let sig := sign_body st0 k sky K0 S0 Hg Pure M0 pk sk0 in
  nonce Hg Pure sk0 M0 < top_residue /\ challenge Hg Pure (firstn 32 sig) pk M0 < top_residue /\
  no_lost_carry (nonce Hg Pure sk0 M0) 4 4 (challenge Hg Pure (firstn 32 sig) pk M0) (secret Hg sk0) /\
  (nonce Hg Pure sk0 M0 + challenge Hg Pure (firstn 32 sig) pk M0 * secret Hg sk0) mod L25519 < top_residue /\
  (forall q e, In (q, e) (additions_with st0 k Hg Pure M0 pk sig) -> borrow_free st0 q e) /\
  challenge Hg Pure (firstn 32 sig) pk M0 = 1 /\ le_val (skipn 32 sig) = 3.
Proof.
  intros LK LS Pk. pose proof (sign_body_parts st0 k sky K0 S0 LK LS Hg Hg64 Pure M0 pk sk0) as (Bs & ER & _).
  pose proof (sign_right st0 k sky K0 S0 LK LS Hg Hg64 Pure M0 pk sk0) as Sr. cbv zeta in Sr |- *.
  set (sig := sign_body st0 k sky K0 S0 Hg Pure M0 pk sk0) in *. clearbody sig.
  destruct (bytes_parts 32 32 sig Bs) as [Bf Bk].
  assert (Hc : Hg (challenge_input Hg Pure (firstn 32 sig) pk M0) = bytes_n 64 1) by (apply challenge_g; [exact (proj1 Bf)|exact (proj1 (proj1 Pk))]).
  assert (Ec : challenge Hg Pure (firstn 32 sig) pk M0 = 1) by (unfold challenge; rewrite Hc; vm_compute; reflexivity).
  rewrite nonce_g, Ec, secret_g in Sr |- *.
  assert (N1 : 305 < top_residue) by (vm_compute; reflexivity). assert (N2 : 1 < top_residue) by (vm_compute; reflexivity).
  assert (N3 : no_lost_carry 305 4 4 1 a_key) by (apply keepf_ok; vm_compute; reflexivity).
  assert (N4 : (305 + 1 * a_key) mod L25519 < top_residue) by (vm_compute; reflexivity).
  pose proof (Sr N1 N2 N3 N4) as (_ & _ & Vs). rewrite nonce_g, Ec, secret_g in Vs. assert (E3 : (305 + 1 * a_key) mod L25519 = 3) by (vm_compute; reflexivity).
  rewrite E3 in Vs. split; [exact N1|]. split; [exact N2|]. split; [exact N3|]. split; [exact N4|]. split; [|split; [reflexivity|exact Vs]].
  assert (Es : skipn 32 sig = s3).
  { destruct Bk as [Lb Fb], s3_bytes as [Ls Fs]. apply le_val_inj; [rewrite Lb, Ls; reflexivity|exact Fb|exact Fs|]. rewrite Vs. vm_compute. reflexivity. }
  unfold public in Pk. rewrite secret_g, key_point in Pk. rewrite pure_additions, Hc, one_reduced, Es. clear - Pk.
  destruct (candidates k pk Pk) as [E|E]; rewrite E; apply bf_ok; [exact good1|exact good2].
Qed.

(** ** A nonce whose residue is 2^252 gives a wrong S *)
Definition Hn (x : list Z) : list Z := bytes_n 64 (if (length x =? 33)%nat then 2 ^ 252 else 0).
Lemma Hn64 x : bytes 64 (Hn x). Proof. apply bytes_n_ok. Qed.
Definition wrong_s : list Z := Eval vm_compute in
  bytes_of (calculate_s_ed25519 st0 (words_of 4 (reduced_digest st0 (bytes_n 64 (2 ^ 252)))) (words_of 4 (reduced_digest st0 (bytes_n 64 0))) (words_of 4 (clamp_bytes255 (bytes_n 64 0)))).
Lemma wrong_s_run : bytes_of (calculate_s_ed25519 st0 (words_of 4 (reduced_digest st0 (bytes_n 64 (2 ^ 252)))) (words_of 4 (reduced_digest st0 (bytes_n 64 0))) (words_of 4 (clamp_bytes255 (bytes_n 64 0)))) = wrong_s.
Proof. vm_compute. reflexivity. Qed.
Lemma nonce_n : nonce Hn Pure sk0 M0 = 2 ^ 252. Proof. vm_compute. reflexivity. Qed.
Lemma nonce_digest : Hn (nonce_input Hn Pure sk0 M0) = bytes_n 64 (2 ^ 252). Proof. vm_compute. reflexivity. Qed.
Lemma key_digest : Hn sk0 = bytes_n 64 0. Proof. vm_compute. reflexivity. Qed.
Lemma challenge_n R pk : length R = 32%nat -> length pk = 32%nat -> Hn (challenge_input Hn Pure R pk M0) = bytes_n 64 0.
Proof.
  intros L1 L2. unfold Hn. replace (length (challenge_input _ _ R pk M0)) with 65%nat; [reflexivity|].
  unfold challenge_input. cbn [dom PH]. rewrite !app_length, L1, L2. reflexivity.
Qed.
Lemma skipn_32 (a b : list Z) : length a = 32%nat -> skipn 32 (a ++ b) = b.
Proof. intro L. rewrite skipn_app, L, Nat.sub_diag, (skipn_all2 a) by lia. reflexivity. Qed.
Lemma wrong_tail k sky K0 S0 pk : length K0 = 67%nat -> length S0 = 67%nat -> length pk = 32%nat -> skipn 32 (sign_body st0 k sky K0 S0 Hn Pure M0 pk sk0) = wrong_s.
Proof.
  intros LK LS Lp. pose proof (R_ok st0 k sky K0 S0 LK LS Hn Hn64 Pure M0 sk0) as (_ & _ & (LR & _)). unfold sign_body. rewrite nonce_digest in *. rewrite key_digest.
  set (R := point_encoding _ _ _) in *. rewrite (challenge_n R pk (proj1 LR) Lp). rewrite skipn_32 by exact (proj1 LR). exact wrong_s_run.
Qed.
Theorem wrong_signature k sky K0 S0 sig0 pk : length K0 = 67%nat -> length S0 = 67%nat -> public Hn sk0 pk ->
  ~ signature Hn Pure sk0 pk M0 (snd (ed25519_sign st0 k sky K0 S0 Hn sig0 M0 pk sk0)).
Proof.
  intros LK LS Pk. rewrite pure_sign. intros (Bs & _ & V). rewrite (wrong_tail k sky K0 S0 pk LK LS (proj1 (proj1 Pk))) in V.
  unfold challenge in V. rewrite challenge_n in V by (try exact (proj1 (proj1 Pk)); rewrite firstn_length, (proj1 Bs); reflexivity).
  rewrite nonce_n in V. replace (le_val (bytes_n 64 0) mod L25519) with 0 in V by (vm_compute; reflexivity). rewrite Z.mul_0_l in V.
  vm_compute in V. discriminate V.
Qed.
