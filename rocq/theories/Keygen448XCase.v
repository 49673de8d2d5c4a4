(** X448 key generation: a key meeting the conditions, and a key whose public key is wrong. *)
From Coq Require Import ZArith List Bool Lia.
From Verif Require Import Uop Engine Bytes Spec SpecX SpecScalar SpecEd SpecIso EdInst448 SpecRecode EdCert448 Scalar448 ScalarProofs Scalar448Proofs ScalarProps TableProofs448 Fixed448Proofs Digits448 LadderVec448 Edwards448
  Edwards448Proofs LadderX448 SpecSign448 Ladder Keygen448Proofs Keygen448Case Map448 Keygen448X Keygen448XProofs LadderMem LadderSmall CurveDH.
Import ListNotations.
Open Scope Z_scope.
(** ** The key 2^447 + 2^356 *)
Definition good_key : list Z := firstn 56 case_bytes.
Definition good_u : Z := 718575742922983505631066096644869460715413836179909705899125628625603765165647166633924752663060055383146824943796108224916761465655357.
Lemma good_key_ok : bytes 56 good_key /\ le_val good_key = case_x.
Proof. split; [|vm_compute; reflexivity]. split; [reflexivity|]. pose proof (proj2 case_bytes_ok) as F. rewrite <- (firstn_skipn 56 case_bytes) in F. apply Forall_app in F. exact (proj1 F). Qed.
Lemma scalar_case : scalar448 case_x = case_x. Proof. vm_compute. reflexivity. Qed.
Lemma u_of k P u : 0 <= k < 2 ^ 448 -> k ** B = P -> 0 <= u < p_ed448 -> fst P mod p_ed448 <> 0 -> (u * (fst P * fst P)) mod p_ed448 = (snd P * snd P) mod p_ed448 ->
  rfc_ladder p_ed448 39081 448 k 5 = u.
Proof. intros Hk <- Hu Nx E. rewrite (spec_map k Hk). exact (quotient448 _ _ u Hu Nx E). Qed.
Lemma good_u_ok : X448_spec case_x 5 = good_u.
Proof.
  unfold X448_spec. rewrite scalar_case. apply (u_of case_x case_p good_u).
  - split; vm_compute; [discriminate|reflexivity].
  - unfold case_x. symmetry. exact case_pt.
  - split; vm_compute; [discriminate|reflexivity].
  - vm_compute. discriminate.
  - vm_compute. reflexivity.
Qed.
Lemma good_key_case : bytes 56 good_key /\ good_scalar (scalar448 (le_val good_key)) /\ ~ sqr_carry_lost (X448_spec (le_val good_key) 5).
Proof.
  destruct good_key_ok as [Bk Ek]. split; [exact Bk|]. rewrite Ek. split; [rewrite scalar_case; apply case_good; left; reflexivity|].
  rewrite good_u_ok. intros [[_ K] _]. revert K. vm_compute. discriminate.
Qed.
(** ** The key 2^447 + 2^321 - 2^127 *)
Definition bad_x : Z := 2 ^ 447 + 2 ^ 321 - 2 ^ 127.
Definition bad_y : Z := 2 ^ 445 + 2 ^ 319 - 2 ^ 125.
(** a quarter of the key, according to the code *)
Definition bad_q : Z := 2 ^ 445 - 2 ^ 319 - 2 ^ 125.
Definition bad_key : list Z := bytes_n 56 bad_x.
Definition bad_digits : list Z := [0; 0; 0; 0; 0; 0; 0; 0; 0; 0; 0; 0; 0; 0; 0; 0; 0; 0; 0; 0; 0; 0; 0; 0; 0; 0; 0; 0; 0; 0; 0; -2; 0; 0; 0; 0; 0; 0; 0; 0; 0; 0; 0; 0; 0; 0; 0; 0; 0; 0; 0; 0; 0; 0; 0; 0; 0; 0; 0; 0; 0; 0; 0; 0; 0; 0; 0; 0; 0; 0; 0; 0; 0; 0; 0; 0; 0; 0; 0; -8; 0; 0; 0; 0; 0; 0; 0; 0; 0; 0; 0; 0; 0; 0; 0; 0; 0; 0; 0; 0; 0; 0; 0; 0; 0; 0; 0; 0; 0; 0; 0; 2].
Definition r1 : Z * Z := (163011015418101884274769936635345654140001495251249754971864641035124663303084445805790857301689999205252032945825695798016719876415042, 380962732310669717934919859849346597912611541769343324188663940298318180575356652484839364400196651314411637237710121766739517271611100).
Definition rY : Z * Z := (147476559751332982504467775001688064395303651323059743128963559024620857791674814497118659918923162304741493224632992698102708070262446, 156262637858558148569343322868483917365049221360489652763024388632251215365192600190994305574301363064793423742892974585120823595510839).
Definition rQ : Z * Z := (69851001125153932490357116583975037557235368072153627793532383970424286758631824447641951966074062576897513553665060967202757034120585, 722037684231934807640440211225145654318129264567697324919577296227686099013385699421783182421315010183484642933265347338335119595039547).
Definition pY : Z * Z := (661109372875206527799555608235001036582138318207452582230353128669628458410320161685800762972795536692661039409619775986607611271403150, 112874366687284133856542338966261851918570047685275426964537067769189586862966965815849543614254072391268137727648738898357614785399463).
Definition pQ : Z * Z := (427512976650645954702837859394454546763622075046268884305363199955138308157589971306356692910688368105457803223663987782861685752162703, 289973709966622147463558817519084303969703697529081773809366136710451257807896514352802053560168554599126161792048726913939898118332703).
Definition uY : Z := 131586948519626370994045555826084623568786676858570325529655789618877099736581645152448106553305050032391746265520170248326246076338656.
Definition uQ : Z := 545422305104113561773960868935281743491613448940003211828988734439564007402396956339331490210930761850744262290744685320462733328612371.
Lemma im_neg a : im (- a) = neg448 (im a).
Proof. rewrite !im_eq. rewrite <- (neg448_mul a _ onM). apply iso448_neg. exact (mul448_on a _ onM). Qed.
Lemma pw l n e : (n < 448)%nat -> pow2s = l -> e = 2 ^ Z.of_nat n -> nth n l (0, 0) = im (e * 4).
Proof. intros H <- ->. exact (pow2s_nth n H). Qed.
Lemma step_add a b P Q R : P = im (a * 4) -> Q = im (b * 4) -> add44 P Q R = true -> R = im ((a + b) * 4).
Proof. intros -> -> H. apply im_add in H. rewrite H. f_equal. ring. Qed.
Lemma step_sub a b P Q R : P = im (a * 4) -> Q = im (b * 4) -> add44 P (neg448 Q) R = true -> R = im ((a - b) * 4).
Proof. intros -> -> H. rewrite <- im_neg in H. apply im_add in H. rewrite H. f_equal. ring. Qed.
Lemma step_back a P R : P = im (a * 4) -> back44 P R = true -> R = (4 * a) ** B.
Proof. intros -> H. rewrite <- im_B in H. rewrite (mul448_mul 4 a B onB). exact (back44_ok _ _ (mul448_on a B onB) H). Qed.
Lemma c1 : add44 (nth 445 pow2s_lit (0, 0)) (neg448 (nth 125 pow2s_lit (0, 0))) r1 = true. Proof. vm_compute. reflexivity. Qed.
Lemma c2 : add44 r1 (nth 319 pow2s_lit (0, 0)) rY = true. Proof. vm_compute. reflexivity. Qed.
Lemma c3 : add44 r1 (neg448 (nth 319 pow2s_lit (0, 0))) rQ = true. Proof. vm_compute. reflexivity. Qed.
Lemma c4 : back44 rY pY = true. Proof. vm_compute. reflexivity. Qed.
Lemma c5 : back44 rQ pQ = true. Proof. vm_compute. reflexivity. Qed.
Lemma r1_ok : r1 = im ((2 ^ 445 - 2 ^ 125) * 4).
Proof. exact (step_sub _ _ _ _ _ (pw pow2s_lit 445 (2 ^ 445) ltac:(lia) pow2s_eq eq_refl) (pw pow2s_lit 125 (2 ^ 125) ltac:(lia) pow2s_eq eq_refl) c1). Qed.
Lemma pY_ok : (4 * bad_y) ** B = pY.
Proof.
  assert (E : bad_y = 2 ^ 445 - 2 ^ 125 + 2 ^ 319) by (vm_compute; reflexivity). rewrite E. symmetry.
  exact (step_back _ _ _ (step_add _ _ _ _ _ r1_ok (pw pow2s_lit 319 (2 ^ 319) ltac:(lia) pow2s_eq eq_refl) c2) c4).
Qed.
Lemma pQ_ok : (4 * bad_q) ** B = pQ.
Proof.
  assert (E : bad_q = 2 ^ 445 - 2 ^ 125 - 2 ^ 319) by (vm_compute; reflexivity). rewrite E. symmetry.
  exact (step_back _ _ _ (step_sub _ _ _ _ _ r1_ok (pw pow2s_lit 319 (2 ^ 319) ltac:(lia) pow2s_eq eq_refl) c3) c5).
Qed.
Lemma bad_key_ok : bytes 56 bad_key /\ le_val bad_key = bad_x /\ scalar448 bad_x = bad_x.
Proof. split; [apply bytes_n_ok|]. split; vm_compute; reflexivity. Qed.
Lemma bad_spec : X448_spec bad_x 5 = uY.
Proof.
  unfold X448_spec. rewrite (proj2 (proj2 bad_key_ok)). apply (u_of bad_x pY uY).
  - split; vm_compute; [discriminate|reflexivity].
  - assert (E : bad_x = 4 * bad_y) by (vm_compute; reflexivity). rewrite E. exact pY_ok.
  - split; vm_compute; [discriminate|reflexivity].
  - vm_compute. discriminate.
  - vm_compute. reflexivity.
Qed.
Lemma bad_safe : safe_number bad_q.
Proof. assert (E : bad_q = weighted 16 (fun m => nth m bad_digits 0) 112) by (vm_compute; reflexivity). rewrite E. apply digits_safe. vm_compute. reflexivity. Qed.
(** the product as computed by the code *)
Definition bad_n : Z := SpecScalar.quarter448 * bad_x - 2 ^ 320.
Lemma bad_drop : val (ScalarProps.limbsf 7 SpecScalar.quarter448) * val (ScalarProps.limbsf 7 bad_x) - droppedf 0 (ScalarProps.limbsf 7 SpecScalar.quarter448) (ScalarProps.limbsf 7 bad_x) = bad_n. Proof. vm_compute. reflexivity. Qed.
Lemma bad_keep : keep448f bad_n = true. Proof. vm_compute. reflexivity. Qed.
Lemma bad_mod : eqm L448 bad_n bad_q. Proof. vm_compute. reflexivity. Qed.
Lemma bad_q_range : 4 * (2 ^ 446 - L448) <= bad_q < L448. Proof. split; vm_compute; [discriminate|reflexivity]. Qed.
Lemma div4_exact st junk a : words 2 junk -> bytes 57 a -> let x := le_val (firstn 56 a) in
  let n := val (ScalarProps.limbsf 7 SpecScalar.quarter448) * val (ScalarProps.limbsf 7 x) - droppedf 0 (ScalarProps.limbsf 7 SpecScalar.quarter448) (ScalarProps.limbsf 7 x) in
  keep448f n = true -> in_range (le_val (div4 st junk a)) n.
Proof.
  intros HJ Ha. cbv zeta. destruct (firstn56 a Ha) as (Wa & Va & Ba).
  assert (Wi : words 7 ifour) by (split; [reflexivity|exact (proj2 (proj2 consts448))]).
  destruct (mulred448 st junk (repeat 0 7) ifour _ HJ (repeat0_words 7) Wi Wa) as (_ & A2 & _ & A4). cbv zeta in A2, A4.
  match type of A2 with 0 <= le_val ?r < _ => change r with (div4 st junk a) in A2, A4 end. set (d := div4 st junk a) in *. clearbody d.
  rewrite val_repeat0, Z.add_0_l, droppedf_ok in A4. rewrite (words_limbs 7 _ Wi), (words_limbs 7 _ Wa), ifour_val, Va, !ScalarProps.limbsf_ok in A4.
  intro K. destruct (A4 (keep448f_ok _ K)) as [E R]. split; [split; [exact (proj1 A2)|exact R]|exact E].
Qed.
Section R.
Variable st : store.
Variables junk K0 S0 : list Z.
Hypothesis HJ : words 2 junk.
Hypothesis LK : length K0 = 115%nat.
Hypothesis LS : length S0 = 115%nat.
Lemma fixed_exact r q : bytes 57 r -> le_val (div4 st junk r) = q -> 0 <= q < L448 -> safe_number q -> proj448 (fixed_point_multiplication448 st junk K0 S0 r) ((4 * q) ** B).
Proof.
  intros Hr Eq Hq Sq. unfold fixed_point_multiplication448. pose proof (proj1 (div4_spec st junk r HJ Hr)) as Bq. cbv zeta in Bq.
  set (d := div4 st junk r) in *. clearbody d.
  assert (L4 : L448 < 2 ^ 448) by (vm_compute; reflexivity).
  pose proof (low56 (repeat 0 115) (repeat 0 115) eq_refl eq_refl d Bq) as E56. rewrite Eq in E56. specialize (E56 (conj (proj1 Hq) (Z.lt_trans _ _ _ (proj2 Hq) L4))).
  assert (Hl : le_val (firstn 56 d) < carry_limit 112) by (rewrite E56; apply (Z.lt_trans _ _ _ (proj2 Hq)); vm_compute; reflexivity).
  rewrite <- E56 in Sq. pose proof (point_multiplication448_ok st K0 S0 d LK LS Bq (safe_recoding st K0 S0 LK LS d Bq Hl Sq)) as P.
  rewrite (proj2 (Z.leb_gt _ _) Hl), Z.sub_0_r, E56 in P. exact P.
Qed.
Lemma bad_bytes : firstn 56 (bad_key ++ [0]) = bad_key /\ clamp_bytes448 bad_key = bad_key. Proof. split; vm_compute; reflexivity. Qed.
Lemma bad_quarter : le_val (div4 st junk (bad_key ++ [0])) = bad_q.
Proof.
  assert (Bb : bytes 57 (bad_key ++ [0])).
  { destruct (proj1 bad_key_ok) as [L F]. split; [rewrite app_length, L; reflexivity|]. apply Forall_app. split; [exact F|]. constructor; [unfold byte; lia|constructor]. }
  pose proof (div4_exact st junk _ HJ Bb) as R. cbv zeta in R. rewrite (proj1 bad_bytes), (proj1 (proj2 bad_key_ok)) in R. rewrite bad_drop in R. specialize (R bad_keep).
  apply (in_range_one _ _ bad_q_range). destruct R as [R1 R2]. split; [exact R1|]. exact (eq_trans R2 bad_mod).
Qed.
Theorem bad_public : le_val (x448_keygen_avx2 st junk K0 S0 bad_key) = uQ.
Proof.
  unfold x448_keygen_avx2. cbv zeta. rewrite (proj2 bad_bytes).
  assert (Bb : bytes 57 (bad_key ++ [0])).
  { destruct (proj1 bad_key_ok) as [L F]. split; [rewrite app_length, L; reflexivity|]. apply Forall_app. split; [exact F|]. constructor; [unfold byte; lia|constructor]. }
  rewrite (fixed448_first st junk K0 S0 bad_key (bad_key ++ [0])) by (rewrite (proj1 bad_bytes); apply firstn_all2; rewrite (proj1 (proj1 bad_key_ok)); lia).
  assert (Hq : 0 <= bad_q < L448) by (split; vm_compute; [discriminate|reflexivity]).
  pose proof (fixed_exact _ bad_q Bb bad_quarter Hq bad_safe) as P. rewrite pQ_ok in P.
  pose proof (to_montgomery_ok st _ _ P) as M. cbv zeta in M.
  assert (U : (snd pQ * snd pQ * inv_mod p_ed448 (fst pQ * fst pQ)) mod p_ed448 = uQ).
  { apply quotient448; [split; vm_compute; [discriminate|reflexivity]|vm_compute; discriminate|vm_compute; reflexivity]. }
  rewrite U in M. apply M. intros [[_ K] _]. revert K. vm_compute. discriminate.
Qed.
End R.
Lemma bad_ladder : rfc_ladder (2 ^ 448 - 2 ^ 224 - 1) 39081 448 (2 ^ 447 - 2 ^ 321 - 2 ^ 127) 5 = uQ.
Proof.
  apply (u_of (2 ^ 447 - 2 ^ 321 - 2 ^ 127) pQ uQ).
  - split; vm_compute; [discriminate|reflexivity].
  - assert (E : 2 ^ 447 - 2 ^ 321 - 2 ^ 127 = 4 * bad_q) by (vm_compute; reflexivity). rewrite E. exact pQ_ok.
  - split; vm_compute; [discriminate|reflexivity].
  - vm_compute. discriminate.
  - vm_compute. reflexivity.
Qed.
Lemma uQ_uY : uQ <> uY. Proof. vm_compute. discriminate. Qed.
Theorem keygen448_refuted : exists key, bytes 56 key /\ le_val key = 2 ^ 447 + 2 ^ 321 - 2 ^ 127 /\
  forall st junk K0 S0, words 2 junk -> length K0 = 115%nat -> length S0 = 115%nat ->
  le_val (x448_keygen_avx2 st junk K0 S0 key) <> X448_spec (le_val key) 5 /\
  le_val (x448_keygen_avx2 st junk K0 S0 key) = rfc_ladder (2 ^ 448 - 2 ^ 224 - 1) 39081 448 (2 ^ 447 - 2 ^ 321 - 2 ^ 127) 5.
Proof.
  exists bad_key. split; [exact (proj1 bad_key_ok)|]. split; [exact (proj1 (proj2 bad_key_ok))|].
  intros st junk K0 S0 HJ LK LS. rewrite (bad_public st junk K0 S0 HJ LK LS), (proj1 (proj2 bad_key_ok)), bad_spec, bad_ladder. split; [exact uQ_uY|reflexivity].
Qed.
(** the same scalar in the fixed-base multiplication *)
Theorem fixed448_refuted : exists r, bytes 57 r /\ 2 ^ 447 <= le_val r < 2 ^ 448 /\ le_val r mod 4 = 0 /\
  forall st junk K0 S0, words 2 junk -> length K0 = 115%nat -> length S0 = 115%nat -> ~ proj448 (fixed_point_multiplication448 st junk K0 S0 r) (le_val (firstn 56 r) ** B).
Proof.
  exists (bad_key ++ [0]). assert (Bb : bytes 57 (bad_key ++ [0])).
  { destruct (proj1 bad_key_ok) as [L F]. split; [rewrite app_length, L; reflexivity|]. apply Forall_app. split; [exact F|]. constructor; [unfold byte; lia|constructor]. }
  split; [exact Bb|]. split; [split; vm_compute; [discriminate|reflexivity]|]. split; [vm_compute; reflexivity|].
  intros st junk K0 S0 HJ LK LS C. rewrite (proj1 bad_bytes), (proj1 (proj2 bad_key_ok)) in C.
  assert (Hq : 0 <= bad_q < L448) by (split; vm_compute; [discriminate|reflexivity]).
  pose proof (fixed_exact st junk K0 S0 HJ LK LS _ bad_q Bb (bad_quarter st junk K0 S0 HJ LK LS) Hq bad_safe) as P. rewrite pQ_ok in P.
  assert (E : bad_x = 4 * bad_y) by (vm_compute; reflexivity). rewrite E, pY_ok in C.
  pose proof (to_montgomery_ok st _ _ C) as M1. pose proof (to_montgomery_ok st _ _ P) as M2. cbv zeta in M1, M2.
  assert (U1 : (snd pQ * snd pQ * inv_mod p_ed448 (fst pQ * fst pQ)) mod p_ed448 = uQ).
  { apply quotient448; [split; vm_compute; [discriminate|reflexivity]|vm_compute; discriminate|vm_compute; reflexivity]. }
  assert (U2 : (snd pY * snd pY * inv_mod p_ed448 (fst pY * fst pY)) mod p_ed448 = uY).
  { apply quotient448; [split; vm_compute; [discriminate|reflexivity]|vm_compute; discriminate|vm_compute; reflexivity]. }
  rewrite U2 in M1. rewrite U1 in M2. destruct M1 as [_ M1]; [intros [[_ K] _]; revert K; vm_compute; discriminate|].
  destruct M2 as [_ M2]; [intros [[_ K] _]; revert K; vm_compute; discriminate|]. rewrite M1 in M2. revert M2. vm_compute. discriminate.
Qed.
(** ** Exchange of generated keys *)
Theorem x448_exchange st junk K0 S0 st1 junk1 K1 S1 st2 st3 a b : words 2 junk -> length K0 = 115%nat -> length S0 = 115%nat -> words 2 junk1 -> length K1 = 115%nat -> length S1 = 115%nat ->
  bytes 56 a -> bytes 56 b -> good_scalar (scalar448 (le_val a)) -> good_scalar (scalar448 (le_val b)) ->
  ~ sqr_carry_lost (X448_spec (le_val a) 5) -> ~ sqr_carry_lost (X448_spec (le_val b) 5) -> ~ carry_lost (X448_spec (le_val a) (X448_spec (le_val b) 5)) ->
  x448_shared_avx2 st2 (x448_keygen_avx2 st junk K0 S0 b) a = x448_shared_avx2 st3 (x448_keygen_avx2 st1 junk1 K1 S1 a) b /\
  le_val (x448_shared_avx2 st2 (x448_keygen_avx2 st junk K0 S0 b) a) = X448_spec (le_val a) (X448_spec (le_val b) 5).
Proof.
  intros HJ LK LS HJ1 LK1 LS1 Ha Hb Ga Gb Na Nb Nab.
  destruct (x448_keygen_ok st junk K0 S0 HJ LK LS b Hb Gb Nb) as [B1 E1]. destruct (x448_keygen_ok st1 junk1 K1 S1 HJ1 LK1 LS1 a Ha Ga Na) as [B2 E2].
  set (pb := x448_keygen_avx2 st junk K0 S0 b) in *. set (pa := x448_keygen_avx2 st1 junk1 K1 S1 a) in *. clearbody pa pb.
  destruct (X448_shared_ok st2 a pb Ha B1) as [C1 _]. destruct (X448_shared_ok st3 b pa Hb B2) as [C2 _].
  assert (L1 : ~ carry_lost (X448_spec (le_val a) (le_val pb))) by (rewrite E1; exact Nab).
  assert (L2 : ~ carry_lost (X448_spec (le_val b) (le_val pa))) by (rewrite E2, X448_spec_agree; exact Nab).
  pose proof (X448_shared_most st2 a pb Ha B1 L1) as V1. pose proof (X448_shared_most st3 b pa Hb B2 L2) as V2. rewrite E1 in V1. rewrite E2 in V2.
  split; [|exact V1]. apply (bytes_eq 56); [exact C1|exact C2|]. rewrite V1, V2. apply X448_spec_agree.
Qed.
