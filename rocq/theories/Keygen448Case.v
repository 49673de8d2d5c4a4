(** A case for the Ed448 theorems: a hash function whose value is 2^447 + 2^356 everywhere. *)
From Coq Require Import ZArith List Bool Lia.
From Verif Require Import Uop Engine Bytes SpecScalar SpecEd SpecIso EdInst448 SpecRecode EdCert448 Scalar448 ScalarProps TableProofs448 Digits448 LadderX448 SpecSign448 Keygen448Proofs.
Import ListNotations.
Open Scope Z_scope.
Definition case_q : Z := 2 ^ 445 + 2 ^ 354.
Definition case_i : Z * Z := (533839981883987637090030923340931134606639545152057805848783843066757559159658091505267595534296142832107889700939535863719116221922677, 671967796306855176348711700457647341661284365006661682626309816203303859051395023876406396228125311858661962345068041685001605085293380).
Definition case_p : Z * Z := (214193588446259554847584737877914334982360532672595456856949372332814444644840240192472004453231049084789733165244299138648345922665807, 175579064600202712434709546519683907438283955221175702571468028365105671964767065280620345826359077607109959004467205795497821628280961).
Lemma case_i_chk : add44 (nth 445 pow2s_lit (0, 0)) (nth 354 pow2s_lit (0, 0)) case_i = true. Proof. vm_compute. reflexivity. Qed.
Lemma case_p_chk : back44 case_i case_p = true. Proof. vm_compute. reflexivity. Qed.
Lemma sum_im l a b i j R S : (a < 448)%nat -> (b < 448)%nat -> pow2s = l -> i = Z.of_nat a -> j = Z.of_nat b -> add44 (nth a l (0, 0)) (nth b l (0, 0)) R = true -> back44 R S = true ->
  S = 4 ** ((2 ^ i + 2 ^ j) ** B).
Proof.
  intros Ha Hb <- -> -> C D. rewrite !pow2s_nth in C by assumption. apply im_add in C. rewrite <- Z.mul_add_distr_r, <- im_B in C.
  rewrite C in D. exact (back44_ok _ _ (mul448_on _ _ onB) D).
Qed.
Lemma case_pt : case_p = (4 * case_q) ** B.
Proof.
  rewrite mul448_mul by exact onB. exact (sum_im pow2s_lit 445 354 445 354 case_i case_p ltac:(lia) ltac:(lia) pow2s_eq eq_refl eq_refl case_i_chk case_p_chk).
Qed.
Definition case_bytes : list Z := [0; 0; 0; 0; 0; 0; 0; 0; 0; 0; 0; 0; 0; 0; 0; 0; 0; 0; 0; 0; 0; 0; 0; 0; 0; 0; 0; 0; 0; 0; 0; 0; 0; 0; 0; 0; 0; 0; 0; 0; 0; 0; 0; 0; 16; 0; 0; 0; 0; 0; 0; 0; 0; 0; 0; 128; 0; 0; 0; 0; 0; 0; 0; 0; 0; 0; 0; 0; 0; 0; 0; 0; 0; 0; 0; 0; 0; 0; 0; 0; 0; 0; 0; 0; 0; 0; 0; 0; 0; 0; 0; 0; 0; 0; 0; 0; 0; 0; 0; 0; 0; 0; 0; 0; 0; 0; 0; 0; 0; 0; 0; 0; 0; 0].
Definition case_hash (n : nat) (x : list Z) : list Z := firstn n case_bytes.
Lemma case_bytes_ok : bytes 114 case_bytes. Proof. split; [reflexivity|]. unfold case_bytes. repeat (constructor; [vm_compute; split; [discriminate|reflexivity]|]). constructor. Qed.
Definition case_x : Z := 4 * case_q.
Definition case_n : Z := 146783911423364576743092537299333564211007795440389782149909700494260094923423701101430951756267833034503706.
Lemma case_n_eq : case_n = case_x mod L448. Proof. vm_compute. reflexivity. Qed.
Lemma case_val : le_val case_bytes = case_x. Proof. vm_compute. reflexivity. Qed.
Lemma case_secret sk : secret448 case_hash sk = case_x. Proof. vm_compute. reflexivity. Qed.
Definition case_digits : list Z := [0; 0; 0; 0; 0; 0; 0; 0; 0; 0; 0; 0; 0; 0; 0; 0; 0; 0; 0; 0; 0; 0; 0; 0; 0; 0; 0; 0; 0; 0; 0; 0; 0; 0; 0; 0; 0; 0; 0; 0; 0; 0; 0; 0; 0; 0; 0; 0; 0; 0; 0; 0; 0; 0; 0; 0; 0; 0; 0; 0; 0; 0; 0; 0; 0; 0; 0; 0; 0; 0; 0; 0; 0; 0; 0; 0; 0; 0; 0; 0; 0; 0; 0; 0; 0; 0; 0; 0; 4; 0; 0; 0; 0; 0; 0; 0; 0; 0; 0; 0; 0; 0; 0; 0; 0; 0; 0; 0; 0; 0; 0; 2].
Definition digits_okb (D : list Z) : bool := forallb (fun m => (- 8 <=? nth m D 0) && (nth m D 0 <=? 7) && negb (is_risky (m / 4) (nth m D 0))) (seq 0 112).
Lemma digits_safe D : digits_okb D = true -> safe_number (weighted 16 (fun m => nth m D 0) 112).
Proof.
  intro H. exists (fun m => nth m D 0). split; [|reflexivity]. intros m Hm. unfold digits_okb in H. rewrite forallb_forall in H. specialize (H m ltac:(apply in_seq; lia)). cbv beta in H.
  apply andb_prop in H. destruct H as [H R]. apply andb_prop in H. destruct H as [H1 H2]. apply Z.leb_le in H1, H2. split; [lia|].
  intro I. apply negb_true_iff in R. unfold is_risky in R. rewrite <- not_true_iff_false in R. apply R. apply existsb_exists. exists ((m / 4)%nat, nth m D 0). split; [exact I|].
  cbn [fst snd]. rewrite Nat.eqb_refl, Z.eqb_refl. reflexivity.
Qed.
Lemma case_safe : safe_number case_q.
Proof. assert (E : case_q = weighted 16 (fun m => nth m case_digits 0) 112) by (vm_compute; reflexivity). rewrite E. apply digits_safe. vm_compute. reflexivity. Qed.
Lemma residue_one L c x k : 0 < L -> c <= k < L -> 0 <= x < L + c -> x mod L = k -> x = k.
Proof.
  intros HL Hk Hx E. pose proof (Z.div_mod x L ltac:(lia)) as D. pose proof (Z.mod_pos_bound x L HL) as MB. rewrite E in D. assert (Q : x / L = 0 \/ x / L = 1).
  { assert (0 <= x / L) by (apply Z.div_pos; lia). assert (x / L < 2) by (apply Z.div_lt_upper_bound; lia). lia. }
  destruct Q as [Q|Q]; rewrite Q in D; lia.
Qed.
Lemma range_eq : 2 ^ 446 + 3 * (2 ^ 446 - L448) = L448 + 4 * (2 ^ 446 - L448). Proof. ring. Qed.
Lemma in_range_one x k : 4 * (2 ^ 446 - L448) <= k < L448 -> in_range x k -> x = k.
Proof.
  intros Hk [R E]. rewrite range_eq in R. unfold eqm in E. rewrite (Z.mod_small k) in E by (destruct Hk; split; [|assumption]; apply Z.le_trans with (4 * (2 ^ 446 - L448)); [vm_compute; discriminate|assumption]).
  apply (residue_one L448 (4 * (2 ^ 446 - L448)) x k); [vm_compute; reflexivity|exact Hk|exact R|exact E].
Qed.
Lemma case_n_range : 4 * (2 ^ 446 - L448) <= case_n < L448. Proof. split; vm_compute; [discriminate|reflexivity]. Qed.
Lemma case_q_range : 4 * (2 ^ 446 - L448) <= case_q < L448. Proof. split; vm_compute; [discriminate|reflexivity]. Qed.
Lemma quarter_inv L a q : (4 * ((L + 1) / 4)) mod L = 1 mod L -> (4 * q) mod L = (4 * a) mod L -> q mod L = a mod L.
Proof.
  intros I E. set (i := (L + 1) / 4) in *. assert (T : forall q, q mod L = (i * ((4 * q) mod L)) mod L).
  { intro z. rewrite Zmult_mod_idemp_r. replace (i * (4 * z)) with (4 * i * z) by ring. rewrite <- Zmult_mod_idemp_l, I, Zmult_mod_idemp_l, Z.mul_1_l. reflexivity. }
  rewrite (T q), E, <- T. reflexivity.
Qed.
Lemma quarters_safe x q : x mod L448 = case_x mod L448 -> quarter_of x q -> safe_number q.
Proof.
  intros X [R E]. unfold eqm in E. rewrite X in E. unfold case_x in E.
  assert (E1 : eqm L448 q case_q) by (apply quarter_inv; [vm_compute; reflexivity|exact E]).
  rewrite (in_range_one q case_q case_q_range (conj R E1)). exact case_safe.
Qed.
Lemma case_good x : x = case_x \/ x = case_n -> good_scalar x.
Proof.
  intro C. split.
  - destruct C as [-> | ->]; (split; [apply keepf_ok|apply keep448f_ok]; vm_compute; reflexivity).
  - intros q. apply quarters_safe. destruct C as [-> | ->]; [reflexivity|vm_compute; reflexivity].
Qed.
Lemma case_plain : plain case_p.
Proof. split; intros [[A1 A2] A3]; revert A2; vm_compute; intro A2; discriminate A2. Qed.
Lemma case_key sk : (forall x, bytes 114 (case_hash 114 x)) /\ good_scalar (secret448 case_hash sk) /\ plain (secret448 case_hash sk ** B).
Proof.
  split; [intro x; exact case_bytes_ok|]. rewrite case_secret. split; [apply case_good; left; reflexivity|]. unfold case_x. rewrite <- case_pt. exact case_plain.
Qed.
Lemma case_nonce m sk M : nonce448 case_hash m sk M = case_n. Proof. unfold nonce448. change (case_hash 114 _) with case_bytes. rewrite case_val. symmetry. exact case_n_eq. Qed.
Lemma case_challenge m R pk M : challenge448 case_hash m R pk M = case_n. Proof. unfold challenge448. change (case_hash 114 _) with case_bytes. rewrite case_val. symmetry. exact case_n_eq. Qed.
Lemma case_n_pt : case_n ** B = case_p.
Proof. rewrite case_pt. apply (order_eq case_n case_x B onB order_B448). vm_compute. reflexivity. Qed.
Lemma case_sign m sk pk M : let H := case_hash in
  no_lost_carry448 (le_val (H 114%nat (nonce_input448 H m sk M))) /\ good_residue (nonce448 H m sk M) /\ plain (nonce448 H m sk M ** B) /\
  forall R, encodes448 R (nonce448 H m sk M ** B) -> no_lost_carry448 (le_val (H 114%nat (challenge_input448 H m R pk M))) /\
     good_sum (nonce448 H m sk M) (challenge448 H m R pk M) (secret448 H sk).
Proof.
  cbv zeta. assert (K : no_lost_carry448 case_x) by (apply keep448f_ok; vm_compute; reflexivity).
  split; [change (case_hash 114 _) with case_bytes; rewrite case_val; exact K|]. rewrite case_nonce.
  split; [intros x Hx; apply case_good; right; exact (in_range_one x case_n case_n_range Hx)|]. split; [rewrite case_n_pt; exact case_plain|].
  intros R _. split; [change (case_hash 114 _) with case_bytes; rewrite case_val; exact K|]. rewrite case_challenge, case_secret.
  intros x y Hx Hy. rewrite (in_range_one x case_n case_n_range Hx), (in_range_one y case_n case_n_range Hy).
  split; [apply keepf_ok|apply keep448f_ok]; vm_compute; reflexivity.
Qed.
