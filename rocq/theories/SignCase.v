(** Runs of Ed25519 that contradict the specification. *)
From Coq Require Import ZArith List Bool Lia FMapPositive.
From Verif Require Import Uop X86 Engine Bytes Fp25519Full Fp25519FullProofs Fp25519Red Fp25519RedProofs Spec SpecVec Lanes RedTac RedProps SpecScalar Scalar448Proofs Scalar ScalarProps SpecEd EdInst EdCert
  Edwards255 Edwards255Proofs Verify255 Verify255Proofs SpecRecode Recode RecodeProofs Table255 TableProofs255 SpecEdVec Fixed255 Fixed255Proofs FixedProps EdProps
  Decode255 Decode255Proofs VerifyMulProofs VerifyCase Sign255 SpecSign Sign255Proofs.
Import ListNotations.
Open Scope Z_scope.
Notation B := B_ed255.
Notation "k ** P" := (mul255 k P) (at level 40).

(** Multiples of the base point by doublings (true) and additions of the base point (false) *)
Fixpoint climb (acc : Z * Z) (ops : list bool) (hs : list (Z * Z)) : option (Z * Z) :=
  match ops, hs with
  | [], [] => Some acc
  | o :: ops, h :: hs => if chk255 acc (if o then acc else B) h then climb h ops hs else None
  | _, _ => None
  end.
Lemma climb_ok ops : forall v hs R, climb (v ** B) ops hs = Some R -> R = (fold_left (fun v o => if o : bool then v + v else v + 1) ops v) ** B.
Proof.
  induction ops as [|o ops IH]; intros v hs R E.
  - destruct hs; [|discriminate E]. injection E as <-. reflexivity.
  - destruct hs as [|h hs]; [discriminate E|]. cbn [climb] in E.
    destruct (chk255 (v ** B) (if o then v ** B else B) h) eqn:C; [|discriminate E].
    apply chk255_ok in C; [|apply mul255_on, onB|destruct o; [apply mul255_on, onB|exact onB]].
    assert (Eh : h = (if o then v + v else v + 1) ** B). { destruct o; rewrite mul255_add by exact onB; exact C. }
    rewrite Eh in E. cbn [fold_left]. exact (IH _ hs R E).
Qed.
Definition ops302 : list bool := [true; true; true; false; true; true; false; true; false; true; false; true].
Definition hints302 : list (Z * Z) := [
  (24727413235106541002554574571675588834622768167397638456726423682521233608206, 15549675580280190176352668710449542251549572066445060580507079593062643049417);
  (14582954232372986451776170844943001818709880559417862259286374126315108956272, 32483318716863467900234833297694612235682047836132991208333042722294373421359);
  (46706390780465557264338673484185971070529246228527338942042475661633188627656, 15299170165656271974649334809062094114079726227711063015095704409550798436788);
  (24193060302538010417230488029838514081720802923509845138863968807030823940444, 57551756252899625001155759838357770487605224608455116862194664796369308545472);
  (8778631385113979698503536285416800227654173765449177055618004852346255903638, 20836693273279846447679364815620750369985077404681918478249609412539783163978);
  (19221060812482789234368547596301475681161058446712650531274529329161973816956, 55869239423581112917232026573486342821488235200958368007514111290385012942694);
  (2618822382939918472464326363506382308506563065871512020243697662348925471395, 50320686243652334683939416124331799820126441965494584097882694525646149544195);
  (57603361865491700787331969167324014446947267157956835002270999113657497171363, 27667112172202140947203792556085504385884923151374649002932055672439795007010);
  (12048940514893147339928581080368295514847669072044445124090638684505479388279, 29943186180317662083698897353738382520558683808889795350249618975992853911982);
  (5321939109727274310852757633548304351496477188156546406778746654008393749452, 15535800349610948627738883875698391381458515640697742613043107151530579224146);
  (46065735672772994538483447648770970601129564184007306006901855441131021715265, 46659251182692741518927184755267639852678021514774275867589990999320227693109);
  (27260281224277462123244437222456409755256557236593515952195785053242027570712, 11028505503066016128174724351565509655623965536722472427366770701845446964756)].
Definition ops2129 : list bool := [true; true; true; true; true; false; true; true; false; true; true; true; true; false].
Definition hints2129 : list (Z * Z) := [
  (24727413235106541002554574571675588834622768167397638456726423682521233608206, 15549675580280190176352668710449542251549572066445060580507079593062643049417);
  (14582954232372986451776170844943001818709880559417862259286374126315108956272, 32483318716863467900234833297694612235682047836132991208333042722294373421359);
  (46706390780465557264338673484185971070529246228527338942042475661633188627656, 15299170165656271974649334809062094114079726227711063015095704409550798436788);
  (16121637619009607773439840283436156467545443443832420589584197780484295031288, 50925107901044861941301590032293890690813323578124472818968980802518735333355);
  (26148317933504540005443173402042326458672162458767831815669826413036406984486, 30850316547316149219369061290562558254923949145644564178378051444253659681385);
  (42611849114816652129849893691017933418470198005445295618574438878926339715745, 38327152775387684259939149722928462304957747489365687042923896203043169446001);
  (13786977659333143913697810130680604739891291717550393596915083864049039029904, 2108010306880205193675654284074020053282397904216644915321063025986145138929);
  (53297870228976702542543779679344200343619072645490015816989655495309423170022, 50877332280077317676257441067667711604682389303555860030419956476014994551413);
  (22532081135146523808800443246901822792755193350900111403177755147609017909992, 9758113469800829449005920477055450002285733088958130649363316716155953717952);
  (38957759154879735016253433874067693001802001894645083527757490286693245220538, 38758541234481382034973642734213882306626974486508472747487482968623652932162);
  (38053637854943737378119068580952984433466620816907710904974658692812553274545, 35863636836926833134978789277731525997869250391410090025626880612507818734705);
  (40920637528707697539264197015259090013892261237549606432533776741890308492584, 21423800134298559284471817270755221009532152069685716052730073459138991542);
  (49691642435861126920551542065542299656921754925634704239719845807668945755754, 30080958864313955269107011648844093660074581314677844638688800008294538097941);
  (4342399800284710799224221579096645681283864896063008008347098189773558863487, 23427541095426605508804049755636523256672252943202602010843381063021348037751)].
Definition P302 : Z * Z := Eval vm_compute in last hints302 (0, 0).
Definition P2129 : Z * Z := Eval vm_compute in last hints2129 (0, 0).
Lemma at302 : 302 ** B = P302.
Proof. symmetry. apply (climb_ok ops302 1 hints302). vm_compute. reflexivity. Qed.
Lemma at2129 : 2129 ** B = P2129.
Proof. symmetry. apply (climb_ok ops2129 1 hints2129). vm_compute. reflexivity. Qed.

(** ** An honest key, signature and message that fail to verify *)
Definition Pk_point : Z * Z := neg255 P302.
Definition Yw : list Z := Eval vm_compute in limbs64 4 (snd P302).
Definition Xw1 : list Z := Eval vm_compute in limbs64 4 (fst P302).
Definition Xw2 : list Z := Eval vm_compute in neg st0 (limbs64 4 (p25519 - fst P302)).
Definition Tw1 : list Z := Eval vm_compute in mul st0 (CPU true true) Xw1 Yw.
Definition Tw2 : list Z := Eval vm_compute in mul st0 (CPU true true) Xw2 Yw.
Definition limbs_of (X Y T : list Z) : list Z :=
  zip_4w st0 (unser_1w st0 (bytes_of X)) (unser_1w st0 (bytes_of Y)) (unser_1w st0 (bytes_of T)) (unser_1w st0 (bytes_of one_words)).
Definition PA1 : list Z := Eval vm_compute in limbs_of Xw1 Yw Tw1.
Definition PA2 : list Z := Eval vm_compute in limbs_of Xw2 Yw Tw2.
Definition bad_Q1 : list Z := Eval vm_compute in double_loop st0 (precompute_points_4w st0 PA1) [15] [7] 1 (neutral_4w st0).
Definition bad_Q2 : list Z := Eval vm_compute in double_loop st0 (precompute_points_4w st0 PA2) [15] [7] 1 (neutral_4w st0).
Lemma T1 k : mul st0 k Xw1 Yw = Tw1. Proof. destruct k as [[] []]; vm_compute; reflexivity. Qed.
Lemma T2 k : mul st0 k Xw2 Yw = Tw2. Proof. destruct k as [[] []]; vm_compute; reflexivity. Qed.
Lemma run1 : double_loop st0 (precompute_points_4w st0 PA1) [15] [7] 1 (neutral_4w st0) = bad_Q1. Proof. vm_compute. reflexivity. Qed.
Lemma run2 : double_loop st0 (precompute_points_4w st0 PA2) [15] [7] 1 (neutral_4w st0) = bad_Q2. Proof. vm_compute. reflexivity. Qed.
Definition s15 : list Z := 15 :: repeat 0 31.
Definition h7 : list Z := 7 :: repeat 0 31.
Lemma wnaf15 : wnaf_256bits st0 260 s15 7 = Some [15]. Proof. vm_compute. reflexivity. Qed.
Lemma wnaf7 : wnaf_256bits st0 260 h7 5 = Some [7]. Proof. vm_compute. reflexivity. Qed.
Lemma bad_mult k PA Q : double_loop st0 (precompute_points_4w st0 PA) [15] [7] 1 (neutral_4w st0) = Q ->
  double_point_mult_4w st0 k s15 h7 PA = Some (point_encoding st0 k (unzip_2w_4w Q)).
Proof. intro E. unfold double_point_mult_4w. rewrite wnaf15, wnaf7. cbv zeta. cbn [length Nat.max]. rewrite E. reflexivity. Qed.
Definition bad_x : Z := 29628428236729064635869621578593118727241229619394215273173369520010052911142.
Lemma bad_encoding1 k : ~ encodes255 (point_encoding st0 k (unzip_2w_4w bad_Q1)) P2129 /\ bytes 32 (point_encoding st0 k (unzip_2w_4w bad_Q1)).
Proof.
  apply and_comm. apply (encoding_differs_x st0 k bad_Q1 P2129 bad_x); [reflexivity|apply arr_lit; vm_compute; reflexivity|apply arr_lit; vm_compute; reflexivity|apply arr_lit; vm_compute; reflexivity
    |vm_compute; discriminate|split; [discriminate|reflexivity]|split; [discriminate|reflexivity]|vm_compute; reflexivity|vm_compute; discriminate].
Qed.
Lemma bad_encoding2 k : ~ encodes255 (point_encoding st0 k (unzip_2w_4w bad_Q2)) P2129 /\ bytes 32 (point_encoding st0 k (unzip_2w_4w bad_Q2)).
Proof.
  apply and_comm. apply (encoding_differs_x st0 k bad_Q2 P2129 bad_x); [reflexivity|apply arr_lit; vm_compute; reflexivity|apply arr_lit; vm_compute; reflexivity|apply arr_lit; vm_compute; reflexivity
    |vm_compute; discriminate|split; [discriminate|reflexivity]|split; [discriminate|reflexivity]|vm_compute; reflexivity|vm_compute; discriminate].
Qed.
Lemma on302 : on255 P302. Proof. rewrite <- at302. apply mul255_on, on_base. Qed.
(** The limbs of the decoded key are one of two *)
Lemma words_eq4 X n : words 4 X -> val X = n -> X = limbs64 4 n.
Proof. intros W <-. exact (words_limbs 4 X W). Qed.
Lemma candidates k pk : encodes255 pk Pk_point -> snd (fst (point_decoding st0 k pk)) = PA1 \/ snd (fst (point_decoding st0 k pk)) = PA2.
Proof.
  intros [Bp Vp]. assert (On : on255 Pk_point) by (apply neg255_on, on302). assert (Ep : Pk_point = (p25519 - fst P302, snd P302)) by (vm_compute; reflexivity).
  rewrite Ep in *. cbn [fst snd] in Vp. pose proof On as (Hx & Hy & _).
  pose proof (VerifyCase.low_part p_ed255 (snd P302) ((p25519 - fst P302) mod 2) Hy ltac:(discriminate)) as M.
  pose proof (top_part p_ed255 (snd P302) (p25519 - fst P302) Hy ltac:(discriminate)) as D. rewrite <- Vp in M, D.
  assert (Ey : (le_val pk mod 2 ^ 255) mod p25519 = snd P302) by (rewrite M; apply Z.mod_small; exact Hy).
  pose proof (decode_xy_shape st0 k pk _ _ Bp On Ey) as Sh. unfold point_decoding. destruct (decode_xy st0 k pk) as [X Y].
  cbn [fst snd]. destruct Sh as (WY & VY & X1 & WX & HX & Rt & EX). rewrite M in VY. rewrite D in EX. clear Bp Vp Ey M D On Ep Hx Hy pk.
  apply (words_eq4 Y _ WY) in VY. change (limbs64 4 (snd P302)) with Yw in VY.
  assert (C : val X1 = p25519 - fst P302 \/ val X1 = fst P302).
  { destruct Rt as [E|E]; [left; exact E|right]. rewrite Z.mod_small in E by exact HX. rewrite E. vm_compute. reflexivity. }
  destruct C as [E|E]; rewrite E in EX; apply (words_eq4 X1 _ WX) in E.
  - right. rewrite Z.eqb_refl in EX. rewrite E in EX. change (limbs64 4 (p25519 - fst P302)) with (limbs64 4 (p25519 - fst P302)) in EX.
    assert (X2 : neg st0 (limbs64 4 (p25519 - fst P302)) = Xw2) by (vm_compute; reflexivity). rewrite X2 in EX. rewrite EX, VY, T2. vm_compute. reflexivity.
  - left. assert (Pb : ((p25519 - fst P302) mod 2 =? fst P302 mod 2) = false) by (vm_compute; reflexivity). rewrite Pb in EX.
    change (limbs64 4 (fst P302)) with Xw1 in E. rewrite EX, E, VY, T1. vm_compute. reflexivity.
Qed.
Definition a_key : Z := 6 * L25519 - 302.
Definition Hx (x : list Z) : list Z :=
  bytes_n 64 (if (length x =? 32)%nat then a_key else if (length x =? 33)%nat then 2129 else if (length x =? 65)%nat then 7 else 0).
Definition sk0 : list Z := repeat 0 32.
Definition M0 : list Z := [0].
Lemma Hx64 x : bytes 64 (Hx x). Proof. apply bytes_n_ok. Qed.
Lemma key_point : a_key ** B = Pk_point.
Proof.
  unfold Pk_point. rewrite <- at302. rewrite <- (mul255_mod l_ed255 a_key B on_base eq_refl order_B).
  assert (E : a_key mod l_ed255 = (- (302)) mod l_ed255) by (vm_compute; reflexivity). rewrite E.
  rewrite (mul255_mod l_ed255 _ B on_base eq_refl order_B). symmetry. apply neg255_mul, on_base.
Qed.
Lemma secret_key : secret Hx sk0 = a_key. Proof. vm_compute. reflexivity. Qed.
Lemma nonce_case : nonce Hx Pure sk0 M0 = 2129. Proof. vm_compute. reflexivity. Qed.
Lemma challenge_case R pk : length R = 32%nat -> length pk = 32%nat -> Hx (challenge_input Hx Pure R pk M0) = bytes_n 64 7.
Proof.
  intros L1 L2. unfold Hx. replace (length (challenge_input _ _ R pk M0)) with 65%nat; [reflexivity|].
  unfold challenge_input. cbn [dom PH]. rewrite !app_length, L1, L2. reflexivity.
Qed.
Lemma seven_reduced : reduced_digest st0 (bytes_n 64 7) = h7. Proof. vm_compute. reflexivity. Qed.
Lemma s15_bytes : bytes 32 s15.
Proof. split; [reflexivity|]. unfold s15. cbn [repeat]. repeat apply Forall_cons; try (split; [discriminate|reflexivity]); apply Forall_nil. Qed.
Lemma le_val_s15 b : bytes 32 b -> le_val b = 15 -> b = s15.
Proof.
  intros [Lb Fb] E. destruct s15_bytes as [Ls Fs]. apply le_val_inj; [rewrite Lb, Ls; reflexivity|exact Fb|exact Fs|]. rewrite E. vm_compute. reflexivity.
Qed.
(** With these limbs the comparison with R fails *)
Lemma not_same sig out : bytes 64 sig -> encodes255 (firstn 32 sig) P2129 -> ~ encodes255 out P2129 /\ bytes 32 out -> same_bytes 32 sig out = false.
Proof.
  intros Bs En [N Bo]. destruct (same_bytes 32 sig out) eqn:E; [|reflexivity]. exfalso. apply N.
  apply (same_bytes_ok 32 sig out ltac:(rewrite (proj1 Bs); lia) (proj1 Bo)) in E. rewrite <- E. exact En.
Qed.
Lemma pure_sign st k sky K0 S0 H sig0 M pk sk : snd (ed25519_sign st k sky K0 S0 H sig0 M pk sk) = sign_body st k sky K0 S0 H Pure M pk sk.
Proof. exact (f_equal snd (sign_with_body st k sky K0 S0 H Pure sig0 M pk sk (Nat.le_0_l 255))). Qed.
Lemma pure_verify st k H M pk sig : ed25519_verify st k H M pk sig = verify_body st k H Pure M pk sig.
Proof. exact (verify_with_body st k H Pure M pk sig (Nat.le_0_l 255)). Qed.
Lemma bad_verify k pk sig : bytes 64 sig -> encodes255 (firstn 32 sig) P2129 -> encodes255 pk Pk_point -> skipn 32 sig = s15 ->
  Hx (challenge_input Hx Pure (firstn 32 sig) pk M0) = bytes_n 64 7 -> verify_body st0 k Hx Pure M0 pk sig = EDDSA_INVALID_SIGNATURE.
Proof.
  intros Bs ER Pk Vs Hc. unfold verify_body. rewrite Hc, seven_reduced, Vs. clear Hc Vs.
  destruct (candidates k pk Pk) as [E|E]; rewrite E.
  - rewrite (bad_mult k PA1 bad_Q1 run1). rewrite (not_same sig _ Bs ER (bad_encoding1 k)). reflexivity.
  - rewrite (bad_mult k PA2 bad_Q2 run2). rewrite (not_same sig _ Bs ER (bad_encoding2 k)). reflexivity.
Qed.
Lemma bad_signature k sky K0 S0 pk : length K0 = 67%nat -> length S0 = 67%nat -> length pk = 32%nat ->
  let sig := sign_body st0 k sky K0 S0 Hx Pure M0 pk sk0 in
  signature Hx Pure sk0 pk M0 sig /\ encodes255 (firstn 32 sig) P2129 /\ skipn 32 sig = s15 /\ Hx (challenge_input Hx Pure (firstn 32 sig) pk M0) = bytes_n 64 7.
Proof.
  intros LK LS Lp. pose proof (sign_body_parts st0 k sky K0 S0 LK LS Hx Hx64 Pure M0 pk sk0) as (Bs & ER & _).
  pose proof (sign_right st0 k sky K0 S0 LK LS Hx Hx64 Pure M0 pk sk0) as Sr. cbv zeta in Sr |- *.
  set (sig := sign_body st0 k sky K0 S0 Hx Pure M0 pk sk0) in *. clearbody sig.
  destruct (bytes_parts 32 32 sig Bs) as [Bf Bk].
  assert (Hc : Hx (challenge_input Hx Pure (firstn 32 sig) pk M0) = bytes_n 64 7) by (apply challenge_case; [exact (proj1 Bf)|exact Lp]).
  assert (Ec : challenge Hx Pure (firstn 32 sig) pk M0 = 7) by (unfold challenge; rewrite Hc; vm_compute; reflexivity).
  rewrite nonce_case, Ec, secret_key in Sr.
  assert (Sg : signature Hx Pure sk0 pk M0 sig).
  { apply Sr; [vm_compute; reflexivity|vm_compute; reflexivity|apply keepf_ok; vm_compute; reflexivity|vm_compute; reflexivity]. }
  split; [exact Sg|]. split; [rewrite nonce_case, at2129 in ER; exact ER|]. split; [|exact Hc]. destruct Sg as (_ & _ & Vs). rewrite nonce_case, Ec, secret_key in Vs.
  assert (E15 : (2129 + 7 * a_key) mod L25519 = 15) by (vm_compute; reflexivity). rewrite E15 in Vs. exact (le_val_s15 _ Bk Vs).
Qed.
Theorem honest_rejected k sky K0 S0 sig0 : length K0 = 67%nat -> length S0 = 67%nat ->
  let pk := snd (ed25519_keygen st0 k sky K0 S0 Hx sk0) in
  let sig := snd (ed25519_sign st0 k sky K0 S0 Hx sig0 M0 pk sk0) in
  public Hx sk0 pk /\ signature Hx Pure sk0 pk M0 sig /\ ed25519_verify st0 k Hx M0 pk sig = EDDSA_INVALID_SIGNATURE.
Proof.
  intros LK LS pk sig. pose proof (proj2 (keygen_ok st0 k sky K0 S0 LK LS Hx Hx64 sk0)) as Pk. fold pk in Pk.
  unfold sig. rewrite pure_sign, pure_verify. clear sig. clearbody pk.
  destruct (bad_signature k sky K0 S0 pk LK LS (proj1 (proj1 Pk))) as (Sg & ER & Vs & Hc).
  split; [exact Pk|]. split; [exact Sg|]. apply bad_verify; [exact (proj1 Sg)|exact ER| |exact Vs|exact Hc].
  unfold public in Pk. rewrite secret_key, key_point in Pk. exact Pk.
Qed.
