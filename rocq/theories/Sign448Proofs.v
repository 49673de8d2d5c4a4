(** Ed448: the checks and the hash inputs of signing and verification, and what verification reads of the signature. *)
From Coq Require Import ZArith List Bool Lia.
From Verif Require Import Uop Engine Bytes SpecScalar Scalar448 Scalar448Proofs ScalarProps Spec Fp448Full Fp448Red RedTac LadderVec448 Edwards448 Sign255 Sign448 SpecSign SpecSign448.
Import ListNotations.
Open Scope Z_scope.

(** The entry points by scheme *)
Definition sign448_with st junk K0 S0 H (m : scheme448) (sig M pk sk : list Z) : Z * list Z :=
  match m with
  | Ed448 c => ed448_signctx st junk K0 S0 H sig M c pk sk
  | Ed448ph c => ed448ph_signctx st junk K0 S0 H sig M c pk sk
  end.
Definition verify448_with st junk H (m : scheme448) (M pk sig : list Z) : Z :=
  match m with
  | Ed448 c => ed448_verifyctx st junk H M c pk sig
  | Ed448ph c => ed448ph_verifyctx st junk H M c pk sig
  end.
Definition ph448 (m : scheme448) : Z := match m with Ed448 _ => 0 | Ed448ph _ => 1 end.
Lemma domain448_ok m : (length (context448 m) <= 255)%nat -> domain448 (ph448 m) (context448 m) = dom448 m.
Proof. intro L. unfold domain448. rewrite Z.mod_small by lia. destruct m; reflexivity. Qed.

Definition verify_rest448 (sig : list Z) (F : list Z -> option (list Z)) (D : Z * list Z) : Z :=
  let (ret, A) := D in
  if negb (ret =? 0) then EDDSA_ERROR_PUBLICKEY else
  match F A with
  | Some Q => if same_bytes 57 sig Q then EDDSA_VERIFICATION_OK else EDDSA_INVALID_SIGNATURE
  | None => -1
  end.
Lemma verify_rest448_not sig F D : verify_rest448 sig F D <> EDDSA_ERROR_CONTEXT.
Proof. unfold verify_rest448. destruct D as [ret A]. destruct (negb _); [discriminate|]. destruct (F A); [destruct (same_bytes _ _ _); discriminate|discriminate]. Qed.
Lemma same_bytes_prefix n : forall sig b b' Q, (n <= length sig)%nat -> same_bytes n (sig ++ b) Q = same_bytes n (sig ++ b') Q.
Proof.
  induction n as [|n IH]; intros sig b b' Q N; [reflexivity|]. destruct sig as [|x sig]; [inversion N|]. cbn [length app same_bytes hd tl] in *. rewrite (IH sig b b') by lia. reflexivity.
Qed.
Lemma verify_rest448_same sig b b' F F' D : (57 <= length sig)%nat -> (forall A, F A = F' A) -> verify_rest448 (sig ++ b) F D = verify_rest448 (sig ++ b') F' D.
Proof.
  intros L E. unfold verify_rest448. destruct D as [ret A]. rewrite <- E. destruct (F A) as [Q|]; [|reflexivity]. rewrite (same_bytes_prefix 57 sig b b' Q L). reflexivity.
Qed.
Section Sign.
Variables (st : store) (junk K0 S0 : list Z).
Variable H : nat -> list Z -> list Z.
Lemma hashed448_ok m M : hashed_message448 H (ph448 m) M = Some (PH448 H m M).
Proof. destruct m; reflexivity. Qed.
(** The bodies after the checks *)
Definition sign_body448 (m : scheme448) (M pk sk : list Z) : list Z :=
  let ah := clamp_bytes_ed448 (H 114 sk) in
  let r := modular_reduction_ed448 st junk (H 114 (dom448 m ++ firstn 57 (skipn 57 ah) ++ PH448 H m M)) in
  let R := point_encoding448 st (fixed_point_multiplication448 st junk K0 S0 r) in
  let h := modular_reduction_ed448 st junk (H 114 (challenge_input448 H m R pk M)) in
  R ++ calculate_s_ed448 st junk r h ah.
Definition verify_body448 (m : scheme448) (M pk sig : list Z) : Z :=
  let h := modular_reduction_ed448 st junk (H 114 (challenge_input448 H m (firstn 57 sig) pk M)) in
  verify_rest448 sig (double_point_mult448_4w st junk (skipn 57 sig) h) (point_decoding448 st pk).
(** The order of the two sides matters to the conversion test *)
Lemma verify_body448_eq m M pk sig : verify_body448 m M pk sig =
  verify_rest448 sig (double_point_mult448_4w st junk (skipn 57 sig) (modular_reduction_ed448 st junk (H 114 (challenge_input448 H m (firstn 57 sig) pk M)))) (point_decoding448 st pk).
Proof. exact (eq_refl (verify_rest448 sig (double_point_mult448_4w st junk (skipn 57 sig) (modular_reduction_ed448 st junk (H 114 (challenge_input448 H m (firstn 57 sig) pk M)))) (point_decoding448 st pk))). Qed.
Lemma sign448_with_all m sig M pk sk : sign448_with st junk K0 S0 H m sig M pk sk = ed448_sign_all st junk K0 S0 H sig M (context448 m) pk sk (ph448 m).
Proof. destruct m; reflexivity. Qed.
Lemma verify448_with_all m M pk sig : verify448_with st junk H m M pk sig = ed448_verify_all st junk H M (context448 m) pk sig (ph448 m).
Proof. destruct m; reflexivity. Qed.
Lemma sign448_with_body m sig M pk sk : (length (context448 m) <= 255)%nat ->
  sign448_with st junk K0 S0 H m sig M pk sk = (EDDSA_SIGNATURE_OK, sign_body448 m M pk sk).
Proof.
  intro L. rewrite sign448_with_all. unfold ed448_sign_all. destruct (Z.ltb_spec 255 (Z.of_nat (length (context448 m)))) as [G|_]; [lia|].
  rewrite hashed448_ok, domain448_ok by exact L. reflexivity.
Qed.
Lemma sign448_with_refused m sig M pk sk : (255 < length (context448 m))%nat -> sign448_with st junk K0 S0 H m sig M pk sk = (EDDSA_ERROR_CONTEXT, sig).
Proof. intro L. rewrite sign448_with_all. unfold ed448_sign_all. destruct (Z.ltb_spec 255 (Z.of_nat (length (context448 m)))) as [G|G]; [reflexivity|lia]. Qed.
Lemma verify448_with_body m M pk sig : (length (context448 m) <= 255)%nat -> verify448_with st junk H m M pk sig = verify_body448 m M pk sig.
Proof.
  intro L. rewrite verify448_with_all. unfold ed448_verify_all. destruct (Z.ltb_spec 255 (Z.of_nat (length (context448 m)))) as [G|_]; [lia|].
  rewrite hashed448_ok, domain448_ok by exact L. unfold verify_body448, challenge_input448, verify_rest448. reflexivity.
Qed.
Lemma verify448_with_refused m M pk sig : (255 < length (context448 m))%nat -> verify448_with st junk H m M pk sig = EDDSA_ERROR_CONTEXT.
Proof. intro L. rewrite verify448_with_all. unfold ed448_verify_all. destruct (Z.ltb_spec 255 (Z.of_nat (length (context448 m)))) as [G|G]; [reflexivity|lia]. Qed.
Lemma context_sign448 m sig M pk sk :
  ((255 < length (context448 m))%nat -> sign448_with st junk K0 S0 H m sig M pk sk = (EDDSA_ERROR_CONTEXT, sig)) /\
  ((length (context448 m) <= 255)%nat -> fst (sign448_with st junk K0 S0 H m sig M pk sk) = EDDSA_SIGNATURE_OK).
Proof. split; intro L; [exact (sign448_with_refused m sig M pk sk L)|]. rewrite (sign448_with_body m sig M pk sk L). reflexivity. Qed.
Lemma context_verify448 m M pk sig : (255 < length (context448 m))%nat <-> verify448_with st junk H m M pk sig = EDDSA_ERROR_CONTEXT.
Proof.
  split; [exact (verify448_with_refused m M pk sig)|]. intro E. destruct (Nat.lt_ge_cases 255 (length (context448 m))) as [G|G]; [exact G|]. exfalso.
  rewrite (verify448_with_body m M pk sig G), verify_body448_eq in E. exact (verify_rest448_not _ _ _ E).
Qed.
(** div4 reads 56 bytes *)
Lemma div4_first s s' : firstn 56 s = firstn 56 s' -> div4 st junk s = div4 st junk s'.
Proof. intro E. unfold div4. rewrite E. reflexivity. Qed.
Lemma double448_first s s' h A : firstn 56 s = firstn 56 s' -> double_point_mult448_4w st junk s h A = double_point_mult448_4w st junk s' h A.
Proof. intro E. unfold double_point_mult448_4w. rewrite (div4_first s s' E). reflexivity. Qed.
Lemma verify448_last_byte m M pk sig b b' : length sig = 113%nat -> verify448_with st junk H m M pk (sig ++ [b]) = verify448_with st junk H m M pk (sig ++ [b']).
Proof.
  intro L. destruct (Nat.lt_ge_cases 255 (length (context448 m))) as [G|G]; [rewrite !verify448_with_refused by exact G; reflexivity|].
  rewrite !verify448_with_body by exact G. rewrite !verify_body448_eq.
  replace (firstn 57 (sig ++ [b])) with (firstn 57 (sig ++ [b'])) by (rewrite !firstn_app, !L; reflexivity).
  set (h := modular_reduction_ed448 _ _ _). clearbody h.
  apply verify_rest448_same; [lia|]. intro A. apply double448_first. rewrite !skipn_app, !firstn_app, !skipn_length, !L. reflexivity.
Qed.
End Sign.
Lemma verify_inputs448 st junk H H' m M pk sig : (length (context448 m) <= 255)%nat -> PH448 H m M = PH448 H' m M ->
  H 114%nat (challenge_input448 H m (firstn 57 sig) pk M) = H' 114%nat (challenge_input448 H m (firstn 57 sig) pk M) ->
  verify448_with st junk H m M pk sig = verify448_with st junk H' m M pk sig.
Proof. intros L EM E. rewrite !verify448_with_body by exact L. rewrite !verify_body448_eq. rewrite E. unfold challenge_input448. rewrite EM. reflexivity. Qed.
Lemma dom448_injective m m' X X' : (length (context448 m) <= 255)%nat -> (length (context448 m') <= 255)%nat -> dom448 m ++ X = dom448 m' ++ X' -> m = m' /\ X = X'.
Proof.
  intros _ _ E.
  assert (G : forall a c b c', dom4 a c ++ X = dom4 b c' ++ X' -> a = b /\ c = c' /\ X = X').
  { intros a c b c'. unfold dom4. rewrite <- !app_assoc. intro E1. apply app_inv_head in E1. cbn [app] in E1. injection E1 as E1 E2 E3. split; [exact E1|].
    apply Nat2Z.inj in E2. revert E3. clear - E2. revert c' E2. induction c as [|u c IH]; intros [|v c'] L E; cbn [length app] in *; try discriminate L.
    - split; [reflexivity|exact E].
    - injection E as -> E. injection L as L. destruct (IH c' L E) as [-> ->]. split; reflexivity. }
  destruct m as [c|c], m' as [c'|c']; cbn [dom448] in E; destruct (G _ _ _ _ E) as (E1 & E2 & E3); try discriminate E1; subst; split; reflexivity.
Qed.
(** Clamping: bytes 57 to 113 are kept *)
Lemma clamp448_tail h : bytes 114 h -> firstn 57 (skipn 57 (clamp_bytes_ed448 h)) = skipn 57 h.
Proof.
  intros [L _]. assert (E : skipn 57 (clamp_bytes_ed448 h) = skipn 57 h).
  { unfold clamp_bytes_ed448. do 57 (destruct h as [|? h]; [discriminate|]). reflexivity. }
  rewrite E. apply firstn_all2. rewrite skipn_length, L. exact (le_n 57).
Qed.
Lemma clamp448_split h : bytes 114 h -> clamp_bytes_ed448 h = Ladder.clamp_bytes448 (firstn 56 h) ++ 0 :: skipn 57 h.
Proof. intros [L _]. unfold clamp_bytes_ed448, Ladder.clamp_bytes448. do 57 (destruct h as [|? h]; [discriminate|]). reflexivity. Qed.
Lemma clamped448_56 h : bytes 114 h -> clamped448 (le_val (firstn 57 h)) = clamped448 (le_val (firstn 56 h)).
Proof.
  intros [L F]. unfold clamped448. rewrite <- (firstn_skipn 56 (firstn 57 h)) at 1. rewrite le_val_app, firstn_firstn. change (Nat.min 56 57) with 56%nat.
  rewrite firstn_length, L.
  set (x := le_val (firstn 56 h)). set (y := le_val (skipn 56 (firstn 57 h))). clearbody x y.
  replace (x + 256 ^ Z.of_nat (Nat.min 56 114) * y) with (x + (2 * y) * 2 ^ 447) by (change (256 ^ Z.of_nat (Nat.min 56 114)) with (2 * 2 ^ 447); ring). rewrite Z_mod_plus_full. reflexivity.
Qed.
Lemma clamp448_val h : bytes 114 h -> bytes 114 (clamp_bytes_ed448 h) /\ le_val (firstn 56 (clamp_bytes_ed448 h)) = clamped448 (le_val (firstn 57 h)).
Proof.
  intro Hh. pose proof Hh as [L F]. rewrite (clamped448_56 h Hh), (clamp448_split h Hh).
  assert (H56 : bytes 56 (firstn 56 h)).
  { split; [rewrite firstn_length, L; reflexivity|]. rewrite <- (firstn_skipn 56 h) in F. apply Forall_app in F. tauto. }
  assert (H57 : Forall byte (skipn 57 h)) by (rewrite <- (firstn_skipn 57 h) in F; apply Forall_app in F; tauto).
  destruct (clamp448_ok _ H56) as [[Lb Fb] V]. set (c := Ladder.clamp_bytes448 (firstn 56 h)) in *. clearbody c. split; [split|].
  - rewrite app_length, Lb. cbn [length]. rewrite skipn_length, L. reflexivity.
  - apply Forall_app. split; [exact Fb|]. constructor; [unfold byte; lia|exact H57].
  - rewrite firstn_app, Lb. change (56 - 56)%nat with 0%nat. rewrite firstn_O, app_nil_r, firstn_all2 by lia. rewrite V. reflexivity.
Qed.
Lemma ser448_1w_length st a : length (ser448_1w st a) = 56%nat.
Proof. unfold ser448_1w, ser448, modp448. rewrite bytes_of_length. unfold Fp448Full.sub448, Fp25519Full.asm2, call. rewrite rd_length. reflexivity. Qed.
Lemma encoding448_length st P : length (point_encoding448 st P) = 57%nat.
Proof. unfold point_encoding448. destruct (deinter448_2w _ _) as [X Y], (deinter448_2w _ _) as [U V]. rewrite app_length, ser448_1w_length. reflexivity. Qed.
Lemma sign_inputs448 st junk K0 S0 H H' m sig0 M pk sk : (forall x, bytes 114 (H 114%nat x)) -> (length (context448 m) <= 255)%nat ->
  let sig := snd (sign448_with st junk K0 S0 H m sig0 M pk sk) in
  H 114%nat sk = H' 114%nat sk -> PH448 H m M = PH448 H' m M -> H 114%nat (nonce_input448 H m sk M) = H' 114%nat (nonce_input448 H m sk M) ->
  H 114%nat (challenge_input448 H m (firstn 57 sig) pk M) = H' 114%nat (challenge_input448 H m (firstn 57 sig) pk M) ->
  sign448_with st junk K0 S0 H m sig0 M pk sk = sign448_with st junk K0 S0 H' m sig0 M pk sk.
Proof.
  intros H114 L sig Ek EM En. unfold sig. rewrite !sign448_with_body by exact L. cbn [snd]. intro Ec. apply (f_equal (fun z => (EDDSA_SIGNATURE_OK, z))).
  assert (Ej : forall R, challenge_input448 H m R pk M = challenge_input448 H' m R pk M) by (intro R; unfold challenge_input448; rewrite EM; reflexivity).
  unfold sign_body448 in *. rewrite (clamp448_tail _ (H114 sk)) in *. rewrite <- Ek, <- EM, (clamp448_tail _ (H114 sk)).
  change (dom448 m ++ skipn 57 (H 114%nat sk) ++ PH448 H m M) with (nonce_input448 H m sk M) in *. rewrite <- En. set (R := point_encoding448 _ _) in *.
  assert (LR : length R = 57%nat) by apply encoding448_length. rewrite firstn_app, LR, Nat.sub_diag in Ec. rewrite (firstn_all2 R) in Ec by lia.
  rewrite app_nil_r in Ec. rewrite <- Ej, <- Ec. reflexivity.
Qed.
