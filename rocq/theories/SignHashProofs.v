(** The EdDSA functions with the library's hash code are those with SHA-512 (FIPS 180-4) and SHAKE256 (FIPS 202). *)
From Coq Require Import ZArith List Bool Lia.
From Verif Require Import Uop Engine Bytes X86 Fp25519Full Fp448Full Fp448Red Sha512 Sha512Proofs Sha3 Sha3Proofs HashProps SpecSha2 SpecSha3 Scalar Scalar448 Edwards255 Fixed255 Decode255 Edwards448 Sign255 Sign448
  SpecScalar SpecEd SpecEdVec SpecSign SpecSign448 ScalarProps Sign255Proofs SignProps Sign448Proofs SignHash.
Import ListNotations.
Open Scope Z_scope.

(** Byte strings of bounded length *)
Definition small (n : Z) (x : list Z) : Prop := Forall byte x /\ Z.of_nat (length x) <= n.
Lemma small_bytes n x : bytes n x -> small (Z.of_nat n) x.
Proof. intros [L F]. split; [exact F|lia]. Qed.
Lemma hash512_ok c pieces : clean c -> Forall (Forall byte) pieces -> Z.of_nat (length (concat pieces)) < 2 ^ 64 ->
  exists c', hash512 c pieces = (SHA512_fips (concat pieces), c') /\ clean c'.
Proof.
  intros Hc F L. pose proof (proj1 (sha512_fips c pieces Hc F L)) as E. destruct Hc as [Lb Fb].
  destruct (close_clean (sph_sha512_all (sph_sha512_init c) pieces) (concat pieces)) as (c' & E' & Hc').
  { apply (all_ok pieces _ []); [apply absorbed_init; assumption|exact F]. }
  exists (sph_sha512_init c'). split; [|exact Hc']. unfold hash512. rewrite (surjective_pairing (sph_sha512_close _)), E, E'. reflexivity.
Qed.
Lemma prefix255_bytes : Forall byte prefix255.
Proof. unfold prefix255. repeat (constructor; [unfold byte; lia|]). constructor. Qed.
Lemma prefix448_bytes : Forall byte prefix448.
Proof. unfold prefix448. repeat (constructor; [unfold byte; lia|]). constructor. Qed.
Lemma domain_pieces_ok pure ph context : 0 <= ph < 256 -> Forall byte context -> ((pure =? 0) && (255 <? Z.of_nat (length context))) = false ->
  concat (domain_pieces pure ph context) = domain pure ph context /\ Forall (Forall byte) (domain_pieces pure ph context) /\ Z.of_nat (length (domain pure ph context)) <= 289.
Proof.
  intros Hp F E. unfold domain_pieces, domain. destruct (pure =? 0); [|split; [reflexivity|split; [constructor|cbn [length]; lia]]].
  rewrite andb_true_l in E. apply Z.ltb_ge in E. split; [cbn [concat]; rewrite app_nil_r, <- app_assoc; reflexivity|]. split.
  - constructor; [|constructor; [exact F|constructor]]. apply Forall_app. split; [exact prefix255_bytes|]. constructor; [exact Hp|].
    constructor; [|constructor]. unfold byte. apply Z.mod_pos_bound. lia.
  - rewrite !app_length. change (length prefix255) with 32%nat. cbn [length]. lia.
Qed.
Section Ed25519.
Variables (st : store) (k : cpu) (sky : bool) (K0 S0 : list Z).
Hypotheses (LK : length K0 = 67%nat) (LS : length S0 = 67%nat).
Variables c0 c1 : ctx.
Hypotheses (C0 : clean c0) (C1 : clean c1).
Let H := SHA512_fips.
Lemma keygen_sha_ok sk : small 32 sk -> ed25519_keygen_sha st k sky K0 S0 c0 sk = ed25519_keygen st k sky K0 S0 H sk.
Proof using C0.
  clear - C0. intros [F L]. unfold ed25519_keygen_sha, ed25519_keygen. destruct (hash512_ok c0 [sk] C0) as (c' & E & _).
  - constructor; [exact F|constructor].
  - cbn [concat]. rewrite app_nil_r. lia.
  - rewrite E. cbn [fst concat]. rewrite app_nil_r. reflexivity.
Qed.
Lemma message_sha_ok ph M : small (2 ^ 64 - 1000) M -> message_sha c1 ph M = hashed_message H ph M /\
  (forall msg, hashed_message H ph M = Some msg -> 0 <= ph < 256 /\ small (2 ^ 64 - 1000) msg).
Proof using C1.
  clear - C1. intros [F L]. unfold message_sha, hashed_message. destruct (ph =? 1) eqn:E1; [apply Z.eqb_eq in E1|destruct (ph =? 0) eqn:E0; [apply Z.eqb_eq in E0|]].
  - destruct (hash512_ok c1 [M] C1) as (c' & E & _); [constructor; [exact F|constructor]|cbn [concat]; rewrite app_nil_r; lia|].
    rewrite E. cbn [fst concat]. rewrite app_nil_r. split; [reflexivity|]. intros msg Em. injection Em as <-. split; [lia|].
    destruct (small_bytes _ _ (sha512_bytes M)) as [B1 B2]. split; [exact B1|]. apply Z.le_trans with (1 := B2). discriminate.
  - split; [reflexivity|]. intros msg Em. injection Em as <-. split; [lia|]. split; assumption.
  - split; [reflexivity|]. discriminate.
Qed.
Lemma hashed3 pure ph context c x y : 0 <= ph < 256 -> Forall byte context -> ((pure =? 0) && (255 <? Z.of_nat (length context))) = false -> clean c ->
  Forall (Forall byte) x -> concat x = y -> Z.of_nat (length y) <= 2 ^ 64 - 900 ->
  exists c', hash512 c (domain_pieces pure ph context ++ x) = (H (domain pure ph context ++ y), c') /\ clean c'.
Proof using.
  clear LK LS. intros Hp Fc E Hc Fx Ey Ly. destruct (domain_pieces_ok pure ph context Hp Fc E) as (D1 & D2 & D3).
  destruct (hash512_ok c (domain_pieces pure ph context ++ x) Hc) as (c' & E' & Hc').
  - apply Forall_app. split; assumption.
  - rewrite concat_app, app_length, D1, Ey. lia.
  - exists c'. split; [|exact Hc']. rewrite E', concat_app, D1, Ey. reflexivity.
Qed.
Lemma sign_sha_ok sig M context pk sk pure ph : small (2 ^ 64 - 1000) M -> Forall byte context -> small 32 pk -> small 32 sk ->
  ed25519_sign_all_sha st k sky K0 S0 c0 c1 sig M context pk sk pure ph = ed25519_sign_all st k sky K0 S0 H sig M context pk sk pure ph.
Proof using C0 C1 LK LS.
  intros HM Fc [Fp Lp] [Fs Ls]. unfold ed25519_sign_all_sha, ed25519_sign_all.
  destruct ((pure =? 0) && (255 <? Z.of_nat (length context))) eqn:E; [reflexivity|].
  destruct (message_sha_ok ph M HM) as [Em Hm]. rewrite Em.
  destruct (hash512_ok c0 [sk] C0) as (c' & E1 & Hc'); [constructor; [exact Fs|constructor]|cbn [concat]; rewrite app_nil_r; lia|].
  rewrite E1. cbn [concat]. rewrite app_nil_r. fold (H sk).
  destruct (hashed_message H ph M) as [msg|]; [|reflexivity]. destruct (Hm msg eq_refl) as [Hp [Fm Lm]].
  destruct (bytes_parts 32 32 (H sk) (sha512_bytes sk)) as [_ [L2 F2]].
  destruct (hashed3 pure ph context c' [skipn 32 (H sk); msg] (skipn 32 (H sk) ++ msg) Hp Fc E Hc') as (c2 & E2 & Hc2).
  { constructor; [exact F2|constructor; [exact Fm|constructor]]. }
  { cbn [concat]. rewrite app_nil_r. reflexivity. }
  { rewrite app_length, L2. lia. }
  rewrite E2. set (d := H (domain pure ph context ++ skipn 32 (H sk) ++ msg)). cbv zeta.
  destruct (reduced_digest_ok st d (sha512_bytes _)) as [Br Vr]. set (r := reduced_digest st d) in *. clearbody r.
  pose proof (encoded_multiple st k sky K0 S0 LK LS _ r Br Vr) as ER. set (R := point_encoding st k (point_multiplication st sky K0 S0 r)) in *. clearbody R.
  destruct ER as [[LR FR] _].
  destruct (hashed3 pure ph context c2 [R; pk; msg] (R ++ pk ++ msg) Hp Fc E Hc2) as (c3 & E3 & Hc3).
  { constructor; [exact FR|constructor; [exact Fp|constructor; [exact Fm|constructor]]]. }
  { cbn [concat]. rewrite app_nil_r. reflexivity. }
  { rewrite !app_length, LR. lia. }
  rewrite E3. reflexivity.
Qed.
Lemma verify_sha_ok sig M context pk pure ph : small (2 ^ 64 - 1000) M -> Forall byte context -> small 32 pk -> small 64 sig ->
  ed25519_verify_all_sha st k c0 c1 M context pk sig pure ph = ed25519_verify_all st k H M context pk sig pure ph.
Proof using C0 C1.
  clear - C0 C1. intros HM Fc [Fp Lp] [Fs Ls]. unfold ed25519_verify_all_sha, ed25519_verify_all.
  destruct ((pure =? 0) && (255 <? Z.of_nat (length context))) eqn:E; [reflexivity|].
  destruct (message_sha_ok ph M HM) as [Em Hm]. rewrite Em. destruct (point_decoding st k pk) as [[ret PA] two].
  destruct (negb (ret =? 0)); [reflexivity|].
  destruct (hashed_message H ph M) as [msg|]; [|reflexivity]. destruct (Hm msg eq_refl) as [Hp [Fm Lm]].
  destruct (hashed3 pure ph context c0 [firstn 32 sig; pk; msg] (firstn 32 sig ++ pk ++ msg) Hp Fc E C0) as (c2 & E2 & Hc2).
  { constructor; [|constructor; [exact Fp|constructor; [exact Fm|constructor]]]. rewrite <- (firstn_skipn 32 sig) in Fs. apply Forall_app in Fs. exact (proj1 Fs). }
  { cbn [concat]. rewrite app_nil_r. reflexivity. }
  { rewrite !app_length, firstn_length. lia. }
  rewrite E2. reflexivity.
Qed.
End Ed25519.

(** ** Ed448 *)
Definition SHAKE256_bytes (n : nat) (x : list Z) : list Z := SHAKE256_fips x n.
Lemma shake_run_ok pieces n : Forall (Forall byte) pieces -> Z.of_nat (length (concat pieces)) < 2 ^ 61 - 136 -> shake_run pieces n = SHAKE256_bytes n (concat pieces).
Proof. intros F L. apply shake256_chunks; [exact F|]. lia. Qed.
Lemma bytes_of_byte ws : Forall byte (bytes_of ws).
Proof.
  induction ws as [|w ws IH]; [constructor|]. change (bytes_of (w :: ws)) with (bytes_of_word w ++ bytes_of ws). apply Forall_app. split; [|exact IH].
  unfold bytes_of_word. apply Forall_forall. intros x Hx. apply in_map_iff in Hx. destruct Hx as (i & <- & _). apply Z.mod_pos_bound. reflexivity.
Qed.
Lemma pe448_small st P : small 57 (point_encoding448 st P).
Proof.
  split; [|rewrite encoding448_length; reflexivity].
  unfold point_encoding448. destruct (deinter448_2w st (fst P)) as [X Y]. destruct (deinter448_2w st (snd P)) as [T Zc]. cbv zeta.
  apply Forall_app. split; [apply bytes_of_byte|]. constructor; [apply Z.mod_pos_bound; reflexivity|constructor].
Qed.
Lemma domain448_pieces_ok ph context : 0 <= ph < 256 -> Forall byte context -> (255 <? Z.of_nat (length context)) = false ->
  concat (domain448_pieces ph context) = domain448 ph context /\ Forall (Forall byte) (domain448_pieces ph context) /\ Z.of_nat (length (domain448 ph context)) <= 265.
Proof.
  intros Hp F E. unfold domain448_pieces, domain448. apply Z.ltb_ge in E. split; [cbn [concat]; rewrite app_nil_r, <- app_assoc; reflexivity|]. split.
  - constructor; [|constructor; [exact F|constructor]]. apply Forall_app. split; [exact prefix448_bytes|]. constructor; [exact Hp|].
    constructor; [|constructor]. unfold byte. apply Z.mod_pos_bound. lia.
  - rewrite !app_length. change (length prefix448) with 8%nat. cbn [length]. lia.
Qed.
Section Ed448.
Variables (st : store) (junk K0 S0 : list Z).
Let H := SHAKE256_bytes.
Lemma keygen_shake_ok sk : small 57 sk -> ed448_keygen_shake st junk K0 S0 sk = ed448_keygen st junk K0 S0 H sk.
Proof. intros [F L]. unfold ed448_keygen_shake, ed448_keygen. rewrite (shake256_oneshot sk 114 F). reflexivity. Qed.
Lemma message_shake_ok ph M : small (2 ^ 61 - 1000) M -> message_shake ph M = hashed_message448 H ph M /\
  (forall msg, hashed_message448 H ph M = Some msg -> 0 <= ph < 256 /\ small (2 ^ 61 - 1000) msg).
Proof.
  intros [F L]. unfold message_shake, hashed_message448. destruct (ph =? 1) eqn:E1; [apply Z.eqb_eq in E1|destruct (ph =? 0) eqn:E0; [apply Z.eqb_eq in E0|]].
  - rewrite (shake256_oneshot M 64 F). split; [reflexivity|]. intros msg Em. injection Em as <-. split; [lia|].
    destruct (small_bytes _ _ (proj2 (shake256_fips M 64 F))) as [B1 B2]. split; [exact B1|]. apply Z.le_trans with (1 := B2). discriminate.
  - split; [reflexivity|]. intros msg Em. injection Em as <-. split; [lia|]. split; assumption.
  - split; [reflexivity|]. discriminate.
Qed.
Lemma hashed3_448 ph context x y : 0 <= ph < 256 -> Forall byte context -> (255 <? Z.of_nat (length context)) = false ->
  Forall (Forall byte) x -> concat x = y -> Z.of_nat (length y) <= 2 ^ 61 - 800 ->
  shake_run (domain448_pieces ph context ++ x) 114 = H 114 (domain448 ph context ++ y).
Proof.
  intros Hp Fc E Fx Ey Ly. destruct (domain448_pieces_ok ph context Hp Fc E) as (D1 & D2 & D3). rewrite shake_run_ok.
  - rewrite concat_app, D1, Ey. reflexivity.
  - apply Forall_app. split; assumption.
  - rewrite concat_app, app_length, D1, Ey. lia.
Qed.
Lemma forall_first (P : Z -> Prop) n l : Forall P l -> Forall P (firstn n l) /\ Forall P (skipn n l).
Proof. intro F. rewrite <- (firstn_skipn n l) in F. apply Forall_app in F. exact F. Qed.
Lemma clamp_high h : length h = 114%nat -> skipn 57 (clamp_bytes_ed448 h) = skipn 57 h.
Proof.
  intro L. unfold clamp_bytes_ed448. set (t := skipn 57 h). change (skipn 57 (?x :: ?l)) with (skipn 56 l).
  rewrite skipn_app, firstn_length, skipn_length, L. change (56 - Nat.min 54 (114 - 1))%nat with 2%nat.
  rewrite skipn_all2 by (rewrite firstn_length; lia). reflexivity.
Qed.
Lemma sign_shake_ok sig M context pk sk ph : small (2 ^ 61 - 1000) M -> Forall byte context -> small 57 pk -> small 57 sk ->
  ed448_sign_all_shake st junk K0 S0 sig M context pk sk ph = ed448_sign_all st junk K0 S0 H sig M context pk sk ph.
Proof.
  intros HM Fc [Fp Lp] [Fs Ls]. unfold ed448_sign_all_shake, ed448_sign_all. destruct (255 <? Z.of_nat (length context)) eqn:E; [reflexivity|].
  destruct (message_shake_ok ph M HM) as [Em Hm]. rewrite Em. rewrite (shake256_oneshot sk 114 Fs). fold (SHAKE256_bytes 114 sk). fold H.
  destruct (hashed_message448 H ph M) as [msg|]; [|reflexivity]. destruct (Hm msg eq_refl) as [Hp [Fm Lm]].
  assert (F2 : Forall byte (firstn 57 (skipn 57 (clamp_bytes_ed448 (H 114%nat sk))))).
  { pose proof (proj2 (shake256_fips sk 114 Fs)) as [Lh Fh]. apply forall_first. rewrite clamp_high by exact Lh. apply forall_first. exact Fh. }
  set (ah := clamp_bytes_ed448 (H 114%nat sk)) in *. clearbody ah. cbv zeta.
  rewrite (hashed3_448 ph context [firstn 57 (skipn 57 ah); msg] (firstn 57 (skipn 57 ah) ++ msg) Hp Fc E).
  2:{ constructor; [exact F2|constructor; [exact Fm|constructor]]. }
  2:{ cbn [concat]. rewrite app_nil_r. reflexivity. }
  2:{ rewrite app_length, firstn_length. lia. }
  generalize (modular_reduction_ed448 st junk (H 114%nat (domain448 ph context ++ firstn 57 (skipn 57 ah) ++ msg))). intro r.
  destruct (pe448_small st (fixed_point_multiplication448 st junk K0 S0 r)) as [FR LR]. revert FR LR. generalize (point_encoding448 st (fixed_point_multiplication448 st junk K0 S0 r)). intros R FR LR.
  rewrite (hashed3_448 ph context [R; pk; msg] (R ++ pk ++ msg) Hp Fc E).
  2:{ constructor; [exact FR|constructor; [exact Fp|constructor; [exact Fm|constructor]]]. }
  2:{ cbn [concat]. rewrite app_nil_r. reflexivity. }
  2:{ rewrite !app_length. lia. }
  reflexivity.
Qed.
Lemma verify_shake_ok sig M context pk ph : small (2 ^ 61 - 1000) M -> Forall byte context -> small 57 pk -> Forall byte sig ->
  ed448_verify_all_shake st junk M context pk sig ph = ed448_verify_all st junk H M context pk sig ph.
Proof.
  intros HM Fc [Fp Lp] Fs. unfold ed448_verify_all_shake, ed448_verify_all. destruct (255 <? Z.of_nat (length context)) eqn:E; [reflexivity|].
  destruct (message_shake_ok ph M HM) as [Em Hm]. rewrite Em.
  destruct (hashed_message448 H ph M) as [msg|]; [|reflexivity]. destruct (Hm msg eq_refl) as [Hp [Fm Lm]]. cbv zeta.
  rewrite (hashed3_448 ph context [firstn 57 sig; pk; msg] (firstn 57 sig ++ pk ++ msg) Hp Fc E).
  2:{ constructor; [apply forall_first; exact Fs|constructor; [exact Fp|constructor; [exact Fm|constructor]]]. }
  2:{ cbn [concat]. rewrite app_nil_r. reflexivity. }
  2:{ rewrite !app_length, firstn_length. lia. }
  reflexivity.
Qed.
End Ed448.

(** ** By scheme *)
Definition sign_sha st k sky K0 S0 c0 c1 (m : scheme) (sig M pk sk : list Z) : Z * list Z :=
  match m with
  | Pure => ed25519_sign_all_sha st k sky K0 S0 c0 c1 sig M [] pk sk 1 0
  | Ctx c => ed25519_sign_all_sha st k sky K0 S0 c0 c1 sig M c pk sk 0 0
  | Ph c => ed25519_sign_all_sha st k sky K0 S0 c0 c1 sig M c pk sk 0 1
  end.
Definition verify_sha st k c0 c1 (m : scheme) (M pk sig : list Z) : Z :=
  match m with
  | Pure => ed25519_verify_all_sha st k c0 c1 M [] pk sig 1 0
  | Ctx c => ed25519_verify_all_sha st k c0 c1 M c pk sig 0 0
  | Ph c => ed25519_verify_all_sha st k c0 c1 M c pk sig 0 1
  end.
Definition sign_shake st junk K0 S0 (m : scheme448) (sig M pk sk : list Z) : Z * list Z :=
  match m with
  | Ed448 c => ed448_sign_all_shake st junk K0 S0 sig M c pk sk 0
  | Ed448ph c => ed448_sign_all_shake st junk K0 S0 sig M c pk sk 1
  end.
Definition verify_shake st junk (m : scheme448) (M pk sig : list Z) : Z :=
  match m with
  | Ed448 c => ed448_verify_all_shake st junk M c pk sig 0
  | Ed448ph c => ed448_verify_all_shake st junk M c pk sig 1
  end.
Theorem keygen_sha_rfc st k sky K0 S0 c0 : length K0 = 67%nat -> length S0 = 67%nat -> clean c0 -> forall sk, bytes 32 sk ->
  fst (ed25519_keygen_sha st k sky K0 S0 c0 sk) = EDDSA_KEYGEN_OK /\ public SHA512_fips sk (snd (ed25519_keygen_sha st k sky K0 S0 c0 sk)).
Proof.
  intros LK LS C sk Hs. rewrite (keygen_sha_ok st k sky K0 S0 c0 C sk (small_bytes 32 sk Hs)).
  exact (keygen_rfc st k sky K0 S0 LK LS SHA512_fips sha512_bytes sk).
Qed.
Theorem sign_sha_with st k sky K0 S0 c0 c1 : length K0 = 67%nat -> length S0 = 67%nat -> clean c0 -> clean c1 -> forall m sig M pk sk,
  Forall byte M -> Z.of_nat (length M) <= 2 ^ 64 - 1000 -> Forall byte (context_of m) -> bytes 32 pk -> bytes 32 sk ->
  sign_sha st k sky K0 S0 c0 c1 m sig M pk sk = sign_with st k sky K0 S0 SHA512_fips m sig M pk sk.
Proof.
  intros LK LS C0 C1 m sig M pk sk FM LM Fc Hp Hs. pose proof (small_bytes 32 pk Hp) as Sp. pose proof (small_bytes 32 sk Hs) as Ss.
  destruct m as [|c|c]; exact (sign_sha_ok st k sky K0 S0 LK LS c0 c1 C0 C1 sig M _ pk sk _ _ (conj FM LM) Fc Sp Ss).
Qed.
Theorem verify_sha_with st k c0 c1 : clean c0 -> clean c1 -> forall m M pk sig,
  Forall byte M -> Z.of_nat (length M) <= 2 ^ 64 - 1000 -> Forall byte (context_of m) -> bytes 32 pk -> bytes 64 sig ->
  verify_sha st k c0 c1 m M pk sig = verify_with st k SHA512_fips m M pk sig.
Proof.
  intros C0 C1 m M pk sig FM LM Fc Hp Hs. pose proof (small_bytes 32 pk Hp) as Sp. pose proof (small_bytes 64 sig Hs) as Ss.
  destruct m as [|c|c]; exact (verify_sha_ok st k c0 c1 C0 C1 sig M _ pk _ _ (conj FM LM) Fc Sp Ss).
Qed.
Theorem sign_sha_R st k sky K0 S0 c0 c1 : length K0 = 67%nat -> length S0 = 67%nat -> clean c0 -> clean c1 -> forall m sig M pk sk,
  Forall byte M -> Z.of_nat (length M) <= 2 ^ 64 - 1000 -> bytes 32 pk -> bytes 32 sk -> Forall byte (context_of m) -> (length (context_of m) <= 255)%nat ->
  let out := sign_sha st k sky K0 S0 c0 c1 m sig M pk sk in
  fst out = EDDSA_SIGNATURE_OK /\ bytes 64 (snd out) /\ encodes255 (firstn 32 (snd out)) (mul255 (nonce SHA512_fips m sk M) B_ed255).
Proof.
  intros LK LS C0 C1 m sig M pk sk FM LM Hp Hs Fc Lc. rewrite (sign_sha_with st k sky K0 S0 c0 c1 LK LS C0 C1 m sig M pk sk FM LM Fc Hp Hs). cbv zeta.
  split; [rewrite (sign_with_body st k sky K0 S0 SHA512_fips m sig M pk sk Lc); reflexivity|].
  exact (sign_R st k sky K0 S0 LK LS SHA512_fips sha512_bytes m sig M pk sk Lc).
Qed.
Theorem keygen_shake_with st junk K0 S0 sk : bytes 57 sk -> ed448_keygen_shake st junk K0 S0 sk = ed448_keygen st junk K0 S0 SHAKE256_bytes sk.
Proof. intro Hs. exact (keygen_shake_ok st junk K0 S0 sk (small_bytes 57 sk Hs)). Qed.
Theorem sign_shake_with st junk K0 S0 m sig M pk sk : Forall byte M -> Z.of_nat (length M) <= 2 ^ 61 - 1000 -> Forall byte (context448 m) -> bytes 57 pk -> bytes 57 sk ->
  sign_shake st junk K0 S0 m sig M pk sk = sign448_with st junk K0 S0 SHAKE256_bytes m sig M pk sk.
Proof.
  intros FM LM Fc Hp Hs. pose proof (small_bytes 57 pk Hp) as Sp. pose proof (small_bytes 57 sk Hs) as Ss.
  destruct m as [c|c]; exact (sign_shake_ok st junk K0 S0 sig M _ pk sk _ (conj FM LM) Fc Sp Ss).
Qed.
Theorem verify_shake_with st junk m M pk sig : Forall byte M -> Z.of_nat (length M) <= 2 ^ 61 - 1000 -> Forall byte (context448 m) -> bytes 57 pk -> bytes 114 sig ->
  verify_shake st junk m M pk sig = verify448_with st junk SHAKE256_bytes m M pk sig.
Proof.
  intros FM LM Fc Hp Hs. pose proof (small_bytes 57 pk Hp) as Sp.
  destruct m as [c|c]; exact (verify_shake_ok st junk sig M _ pk _ (conj FM LM) Fc Sp (proj2 Hs)).
Qed.
Lemma sha_case : clean (Sha512.Ctx (repeat 170 128) [] 77) /\ bytes 32 (repeat 7 32) /\ bytes 57 (repeat 7 57) /\ Forall byte (repeat 1 300) /\
  Z.of_nat (length (repeat 1 300)) <= 2 ^ 61 - 1000 /\ Forall byte (context_of (Ph (repeat 255 255))) /\ (length (context_of (Ph (repeat 255%Z 255))) <= 255)%nat.
Proof.
  assert (R : forall x n, byte x -> bytes n (repeat x n)).
  { intros x n Hx. split; [apply repeat_length|]. apply Forall_forall. intros y Hy. rewrite (repeat_spec n x y Hy). exact Hx. }
  split; [exact (R 170 128%nat ltac:(unfold byte; lia))|]. split; [exact (R 7 32%nat ltac:(unfold byte; lia))|]. split; [exact (R 7 57%nat ltac:(unfold byte; lia))|].
  split; [exact (proj2 (R 1 300%nat ltac:(unfold byte; lia)))|]. split; [rewrite repeat_length; discriminate|].
  split; [exact (proj2 (R 255 255%nat ltac:(unfold byte; lia)))|]. cbn [context_of]. rewrite repeat_length. apply le_n.
Qed.
