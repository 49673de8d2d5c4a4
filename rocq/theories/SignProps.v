(** Statements of PropsSign derived from the proofs about the model. *)
From Coq Require Import ZArith List Bool Lia.
From Verif Require Import Uop Engine Bytes Fp25519Full Spec SpecVec SpecScalar ScalarProps Scalar448Proofs Scalar SpecEd EdInst SpecEdVec EdProps SpecSign Edwards255 Edwards255Proofs Fixed255 Decode255 Decode255Proofs Sign255 Sign255Proofs
  NoPoint VerifyCase SignCase SignCase2 SignCase3.
Import ListNotations.
Open Scope Z_scope.

Lemma decompression st k pk A : on255 A -> encodes255 pk A ->
  let '(ret, xytz, two) := point_decoding st k pk in ret = 0 /\ point_4w255 xytz (neg255 A) /\ point_2w255 (fst two) (snd two) (neg255 A).
Proof.
  intros On [Bp Vp]. destruct A as [x y]. cbn [fst snd] in *. pose proof On as (Hx & Hy & Hc).
  pose proof (VerifyCase.low_part p_ed255 y (x mod 2) Hy ltac:(discriminate)) as M. pose proof (top_part p_ed255 y x Hy ltac:(discriminate)) as D. rewrite <- Vp in M, D.
  pose proof (point_decoding_ok st k pk (x, y) Bp On) as P. cbn [fst snd] in P. rewrite M, D in P.
  specialize (P (Z.mod_small _ _ Hy) (fun _ => eq_refl)). destruct (point_decoding st k pk) as [[ret p4] p2]. destruct P as (P1 & P2 & P3).
  split; [exact P1|]. split; [apply pt4_iff; exact P2|apply pt2_iff; exact P3].
Qed.
Definition base_bytes : list Z := bytes_n 32 (snd B_ed255).
Lemma base_encoded : on255 B_ed255 /\ encodes255 base_bytes B_ed255 /\ neg255 B_ed255 <> B_ed255.
Proof.
  split; [exact on_base|]. split; [split; [apply bytes_n_ok|vm_compute; reflexivity]|]. intro E. vm_compute in E. discriminate E.
Qed.
Lemma bad_key_accepted : (forall P, on255 P -> ~ encodes255 two_key P) /\ bytes 32 two_key /\
  (forall st k H m M sig, (length (context_of m) <= 255)%nat -> verify_with st k H m M two_key sig <> EDDSA_ERROR_PUBLICKEY) /\
  (forall x, bytes 64 (H0 x)) /\
  (forall k m M, (length (context_of m) <= 255)%nat -> exists sig, bytes 64 sig /\ verify_with st0 k H0 m M two_key sig = EDDSA_VERIFICATION_OK).
Proof.
  split; [exact two_key_no_point|]. split; [exact two_key_bytes|]. split; [intros st k H m M sig; exact (no_key_refused st k H m M two_key sig)|]. split; [exact H0_64|].
  intros k m M L. destruct (any_key_accepts k m M two_key L) as (sig & Bs & _ & V). exists sig. exact (conj Bs V).
Qed.
Lemma context_sign st k sky K0 S0 H m sig0 M pk sk :
  ((255 < length (context_of m))%nat -> sign_with st k sky K0 S0 H m sig0 M pk sk = (EDDSA_ERROR_CONTEXT, sig0)) /\
  ((length (context_of m) <= 255)%nat -> fst (sign_with st k sky K0 S0 H m sig0 M pk sk) = EDDSA_SIGNATURE_OK).
Proof.
  split; intro L; [exact (sign_with_refused st k sky K0 S0 H m sig0 M pk sk L)|]. rewrite (sign_with_body st k sky K0 S0 H m sig0 M pk sk L). reflexivity.
Qed.
Lemma context_verify st k H m M pk sig : (255 < length (context_of m))%nat <-> verify_with st k H m M pk sig = EDDSA_ERROR_CONTEXT.
Proof.
  split; [exact (verify_with_refused st k H m M pk sig)|]. intro E. destruct (Nat.lt_ge_cases 255 (length (context_of m))) as [G|G]; [exact G|]. exfalso.
  rewrite (verify_with_body st k H m M pk sig G) in E. unfold verify_body in E.
  destruct (double_point_mult_4w _ _ _ _ _); [destruct (same_bytes _ _ _); discriminate E|discriminate E].
Qed.
Lemma verify_inputs st k H H' m M pk sig : (length (context_of m) <= 255)%nat -> PH H m M = PH H' m M ->
  H (challenge_input H m (firstn 32 sig) pk M) = H' (challenge_input H m (firstn 32 sig) pk M) ->
  verify_with st k H m M pk sig = verify_with st k H' m M pk sig.
Proof.
  intros L EM E. rewrite !verify_with_body by exact L. unfold verify_body. rewrite E. unfold challenge_input. rewrite EM. reflexivity.
Qed.
Lemma dom_injective m m' X X' : m <> Pure -> m' <> Pure -> (length (context_of m) <= 255)%nat -> (length (context_of m') <= 255)%nat ->
  dom m ++ X = dom m' ++ X' -> m = m' /\ X = X'.
Proof.
  intros N N' _ _ E.
  assert (G : forall a c b c', dom2 a c ++ X = dom2 b c' ++ X' -> a = b /\ c = c' /\ X = X').
  { intros a c b c'. unfold dom2. rewrite <- !app_assoc. intro E1. apply app_inv_head in E1. cbn [app] in E1. injection E1 as E1 E2 E3. split; [exact E1|].
    apply Nat2Z.inj in E2. revert E3. clear - E2. revert c' E2. induction c as [|u c IH]; intros [|v c'] L E; cbn [length app] in *; try discriminate L.
    - split; [reflexivity|exact E].
    - injection E as -> E. injection L as L. destruct (IH c' L E) as [-> ->]. split; reflexivity. }
  destruct m as [|c|c], m' as [|c'|c']; try (exfalso; apply N; reflexivity); try (exfalso; apply N'; reflexivity); cbn [dom] in E;
    destruct (G _ _ _ _ E) as (E1 & E2 & E3); try discriminate E1; subst; split; reflexivity.
Qed.
Lemma high_s_accepted : (forall x, bytes 64 (H0 x)) /\ L25519 < 2 ^ 253 /\ forall k m M pk, (length (context_of m) <= 255)%nat ->
  exists sig, bytes 64 sig /\ le_val (skipn 32 sig) = 2 ^ 253 /\ verify_with st0 k H0 m M pk sig = EDDSA_VERIFICATION_OK.
Proof. split; [exact H0_64|]. split; [reflexivity|exact any_key_accepts]. Qed.
Lemma unequal_accepted : (forall x, bytes 64 (H2 x)) /\ on255 ed_zero /\ encodes255 one_key ed_zero /\ forall k m M, (length (context_of m) <= 255)%nat ->
  exists sig, bytes 64 sig /\ ~ equation H2 m ed_zero one_key M sig /\ verify_with st0 k H2 m M one_key sig = EDDSA_VERIFICATION_OK.
Proof. split; [exact H2_64|]. split; [exact on_zero|]. split; [exact one_key_encodes|exact wrongly_accepted]. Qed.
Section S.
Variables (st : store) (k : cpu) (sky : bool) (K0 S0 : list Z).
Hypotheses (LK : length K0 = 67%nat) (LS : length S0 = 67%nat).
Variable H : list Z -> list Z.
Hypothesis H64 : forall x, bytes 64 (H x).
Lemma keygen_rfc sk : fst (ed25519_keygen st k sky K0 S0 H sk) = EDDSA_KEYGEN_OK /\ public H sk (snd (ed25519_keygen st k sky K0 S0 H sk)).
Proof. destruct (keygen_ok st k sky K0 S0 LK LS H H64 sk) as [E P]. split; [rewrite E; reflexivity|exact P]. Qed.
Lemma sign_snd m sig0 M pk sk : (length (context_of m) <= 255)%nat -> snd (sign_with st k sky K0 S0 H m sig0 M pk sk) = sign_body st k sky K0 S0 H m M pk sk.
Proof. intro L. rewrite (sign_with_body st k sky K0 S0 H m sig0 M pk sk L). reflexivity. Qed.
Lemma sign_rfc m sig0 M pk sk : (length (context_of m) <= 255)%nat ->
  let sig := snd (sign_with st k sky K0 S0 H m sig0 M pk sk) in
  nonce H m sk M < top_residue -> challenge H m (firstn 32 sig) pk M < top_residue ->
  no_lost_carry (nonce H m sk M) 4 4 (challenge H m (firstn 32 sig) pk M) (secret H sk) ->
  (nonce H m sk M + challenge H m (firstn 32 sig) pk M * secret H sk) mod L25519 < top_residue ->
  signature H m sk pk M sig.
Proof. intro L. rewrite (sign_snd m sig0 M pk sk L). exact (sign_right st k sky K0 S0 LK LS H H64 m M pk sk). Qed.
Lemma sign_R m sig0 M pk sk : (length (context_of m) <= 255)%nat ->
  let sig := snd (sign_with st k sky K0 S0 H m sig0 M pk sk) in bytes 64 sig /\ encodes255 (firstn 32 sig) (mul255 (nonce H m sk M) B_ed255).
Proof. intro L. rewrite (sign_snd m sig0 M pk sk L). destruct (sign_body_parts st k sky K0 S0 LK LS H H64 m M pk sk) as (Bs & E & _). exact (conj Bs E). Qed.
End S.
Lemma sign_inputs st k sky K0 S0 H H' m sig0 M pk sk : length K0 = 67%nat -> length S0 = 67%nat -> (forall x, bytes 64 (H x)) -> (length (context_of m) <= 255)%nat ->
  let sig := snd (sign_with st k sky K0 S0 H m sig0 M pk sk) in
  H sk = H' sk -> PH H m M = PH H' m M -> H (nonce_input H m sk M) = H' (nonce_input H m sk M) ->
  H (challenge_input H m (firstn 32 sig) pk M) = H' (challenge_input H m (firstn 32 sig) pk M) ->
  sign_with st k sky K0 S0 H m sig0 M pk sk = sign_with st k sky K0 S0 H' m sig0 M pk sk.
Proof.
  intros LK LS H64 L sig Ek EM En. unfold sig. rewrite !sign_with_body by exact L. cbn [snd]. intro Ec. apply (f_equal (fun z => (EDDSA_SIGNATURE_OK, z))).
  destruct (R_ok st k sky K0 S0 LK LS H H64 m M sk) as (_ & _ & ([LR _] & _)).
  assert (Ei : nonce_input H m sk M = nonce_input H' m sk M) by (unfold nonce_input; rewrite Ek, EM; reflexivity).
  assert (Ej : forall R, challenge_input H m R pk M = challenge_input H' m R pk M) by (intro R; unfold challenge_input; rewrite EM; reflexivity).
  unfold sign_body in *. rewrite <- Ei, <- En. rewrite <- Ek. set (R := point_encoding _ _ _) in *.
  rewrite firstn_app, LR, Nat.sub_diag in Ec. rewrite (firstn_all2 R) in Ec by lia. rewrite app_nil_r in Ec. rewrite <- Ej, <- Ec. reflexivity.
Qed.
