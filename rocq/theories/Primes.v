(** Generated by tools/gen_primes.py: primality of the field and group orders. *)
From Coq Require Import ZArith Znumtheory List Lia.
From Verif Require Import Primality.
Import ListNotations.
Open Scope Z_scope.

Lemma prime_991 : prime 991.
Proof. apply (trial_prime 3000); [lia|vm_compute; reflexivity]. Qed.

Lemma prime_103 : prime 103.
Proof. apply (trial_prime 3000); [lia|vm_compute; reflexivity]. Qed.

Definition mN_1 : Z -> Z := fun q => 8574133 * q.
Definition steps_1 : list (nat * positive) := [(0%nat, 84%positive); (1%nat, 103%positive); (1%nat, 991%positive); (3%nat, 103%positive)].
Definition qs_1 : list (Z * nat * Z * Z) := [(991, 2%nat, 1014251, 406419); (103, 3%nat, 3531099, 1779671)].
Definition certs_1 : list (list (Z * Z)) := Eval vm_compute in table_cert 8574133 steps_1 [2].
Lemma prime_8574133 : prime 8574133.
Proof.
  apply (poc_sound 8574133 mN_1 2 steps_1 certs_1 qs_1).
  - reflexivity.
  - vm_cast_no_check (eq_refl true).
  - reflexivity.
  - unfold qs_1; cbn [map fst]; repeat (apply Forall_cons; [first [apply prime_991|apply prime_103]|]); apply Forall_nil.
Qed.

Lemma prime_127 : prime 127.
Proof. apply (trial_prime 3000); [lia|vm_compute; reflexivity]. Qed.

Definition mN_2 : Z -> Z := fun q => 1919519569386763 * q.
Definition steps_2 : list (nat * positive) := [(0%nat, 1762782%positive); (1%nat, 127%positive); (1%nat, 8574133%positive); (3%nat, 127%positive)].
Definition qs_2 : list (Z * nat * Z * Z) := [(8574133, 2%nat, 1290547218147893, 712619969572013); (127, 3%nat, 1870148777187772, 561939919808897)].
Definition certs_2 : list (list (Z * Z)) := Eval vm_compute in table_cert 1919519569386763 steps_2 [2].
Lemma prime_1919519569386763 : prime 1919519569386763.
Proof.
  apply (poc_sound 1919519569386763 mN_2 2 steps_2 certs_2 qs_2).
  - reflexivity.
  - vm_cast_no_check (eq_refl true).
  - reflexivity.
  - unfold qs_2; cbn [map fst]; repeat (apply Forall_cons; [first [apply prime_8574133|apply prime_127]|]); apply Forall_nil.
Qed.

Lemma prime_569003 : prime 569003.
Proof. apply (trial_prime 3000); [lia|vm_compute; reflexivity]. Qed.

Definition mN_3 : Z -> Z := fun q => 2773320623 * q.
Definition steps_3 : list (nat * positive) := [(0%nat, 4874%positive); (1%nat, 569003%positive)].
Definition qs_3 : list (Z * nat * Z * Z) := [(569003, 1%nat, 2440407146, 1794440137)].
Definition certs_3 : list (list (Z * Z)) := Eval vm_compute in table_cert 2773320623 steps_3 [2].
Lemma prime_2773320623 : prime 2773320623.
Proof.
  apply (poc_sound 2773320623 mN_3 2 steps_3 certs_3 qs_3).
  - reflexivity.
  - vm_cast_no_check (eq_refl true).
  - reflexivity.
  - unfold qs_3; cbn [map fst]; repeat (apply Forall_cons; [first [apply prime_569003]|]); apply Forall_nil.
Qed.

Definition mN_4 : Z -> Z := fun q => 72106336199 * q.
Definition steps_4 : list (nat * positive) := [(0%nat, 26%positive); (1%nat, 2773320623%positive)].
Definition qs_4 : list (Z * nat * Z * Z) := [(2773320623, 1%nat, 8149528284, 7584709)].
Definition certs_4 : list (list (Z * Z)) := Eval vm_compute in table_cert 72106336199 steps_4 [2].
Lemma prime_72106336199 : prime 72106336199.
Proof.
  apply (poc_sound 72106336199 mN_4 2 steps_4 certs_4 qs_4).
  - reflexivity.
  - vm_cast_no_check (eq_refl true).
  - reflexivity.
  - unfold qs_4; cbn [map fst]; repeat (apply Forall_cons; [first [apply prime_2773320623]|]); apply Forall_nil.
Qed.

Definition mN_5 : Z -> Z := fun q => 75445702479781427272750846543864801 * q.
Definition steps_5 : list (nat * positive) := [(0%nat, 545090400%positive); (1%nat, 72106336199%positive); (1%nat, 1919519569386763%positive); (3%nat, 72106336199%positive)].
Definition qs_5 : list (Z * nat * Z * Z) := [(1919519569386763, 2%nat, 74602835786463724888147869570305675, 56113048138023733339996598108928949); (72106336199, 3%nat, 55965016733432503242248684386325671, 53127031540805846987153763991134102)].
Definition certs_5 : list (list (Z * Z)) := Eval vm_compute in table_cert 75445702479781427272750846543864801 steps_5 [2].
Lemma prime_75445702479781427272750846543864801 : prime 75445702479781427272750846543864801.
Proof.
  apply (poc_sound 75445702479781427272750846543864801 mN_5 2 steps_5 certs_5 qs_5).
  - reflexivity.
  - vm_cast_no_check (eq_refl true).
  - reflexivity.
  - unfold qs_5; cbn [map fst]; repeat (apply Forall_cons; [first [apply prime_1919519569386763|apply prime_72106336199]|]); apply Forall_nil.
Qed.

Lemma prime_430751 : prime 430751.
Proof. apply (trial_prime 3000); [lia|vm_compute; reflexivity]. Qed.

Lemma prime_4153 : prime 4153.
Proof. apply (trial_prime 3000); [lia|vm_compute; reflexivity]. Qed.

Definition mN_6 : Z -> Z := fun q => 31757755568855353 * q.
Definition steps_6 : list (nat * positive) := [(0%nat, 17752584%positive); (1%nat, 4153%positive); (1%nat, 430751%positive); (3%nat, 4153%positive)].
Definition qs_6 : list (Z * nat * Z * Z) := [(430751, 2%nat, 15419847897348699, 7419369626816150); (4153, 3%nat, 25117532289192573, 22348182751067372)].
Definition certs_6 : list (list (Z * Z)) := Eval vm_compute in table_cert 31757755568855353 steps_6 [2].
Lemma prime_31757755568855353 : prime 31757755568855353.
Proof.
  apply (poc_sound 31757755568855353 mN_6 2 steps_6 certs_6 qs_6).
  - reflexivity.
  - vm_cast_no_check (eq_refl true).
  - reflexivity.
  - unfold qs_6; cbn [map fst]; repeat (apply Forall_cons; [first [apply prime_430751|apply prime_4153]|]); apply Forall_nil.
Qed.

Definition mN_7 : Z -> Z := fun q => 74058212732561358302231226437062788676166966415465897661863160754340907 * q.
Definition steps_7 : list (nat * positive) := [(0%nat, 30909282119527343802%positive); (1%nat, 31757755568855353%positive); (1%nat, 75445702479781427272750846543864801%positive); (3%nat, 31757755568855353%positive)].
Definition qs_7 : list (Z * nat * Z * Z) := [(75445702479781427272750846543864801, 2%nat, 70463328703800545008217672123162676565183935400628861884889913886334520, 66117633491858138461393741777649859022484251587227054915412604379442197); (31757755568855353, 3%nat, 18232248056023258384404751131439975669387062239511397558448549501188471, 12399670712182237045161807348470345042472065485440476986607377034942449)].
Definition certs_7 : list (list (Z * Z)) := Eval vm_compute in table_cert 74058212732561358302231226437062788676166966415465897661863160754340907 steps_7 [2].
Lemma prime_74058212732561358302231226437062788676166966415465897661863160754340907 : prime 74058212732561358302231226437062788676166966415465897661863160754340907.
Proof.
  apply (poc_sound 74058212732561358302231226437062788676166966415465897661863160754340907 mN_7 2 steps_7 certs_7 qs_7).
  - reflexivity.
  - vm_cast_no_check (eq_refl true).
  - reflexivity.
  - unfold qs_7; cbn [map fst]; repeat (apply Forall_cons; [first [apply prime_75445702479781427272750846543864801|apply prime_31757755568855353]|]); apply Forall_nil.
Qed.

Definition mN_8 : Z -> Z := fun q => sh 255 q - 19 * q.
Definition steps_8 : list (nat * positive) := [(0%nat, 781764%positive); (1%nat, 74058212732561358302231226437062788676166966415465897661863160754340907%positive)].
Definition qs_8 : list (Z * nat * Z * Z) := [(74058212732561358302231226437062788676166966415465897661863160754340907, 1%nat, 55540832096118778044507775605005710249233119951144946814680141076505643269084, 409719996120619553712206717513598108624848060785013849502386565616653579131)].
Definition certs_8 : list (list (Z * Z)) := Eval vm_compute in table_cert 57896044618658097711785492504343953926634992332820282019728792003956564819949 steps_8 [2].
Lemma prime_57896044618658097711785492504343953926634992332820282019728792003956564819949 : prime 57896044618658097711785492504343953926634992332820282019728792003956564819949.
Proof.
  apply (poc_sound 57896044618658097711785492504343953926634992332820282019728792003956564819949 mN_8 2 steps_8 certs_8 qs_8).
  - intros q Hq; unfold mN_8; rewrite !sh_eq by auto; ring.
  - vm_cast_no_check (eq_refl true).
  - reflexivity.
  - unfold qs_8; cbn [map fst]; repeat (apply Forall_cons; [first [apply prime_74058212732561358302231226437062788676166966415465897661863160754340907]|]); apply Forall_nil.
Qed.

Theorem prime_p25519 : prime (2 ^ 255 - 19).
Proof. exact prime_57896044618658097711785492504343953926634992332820282019728792003956564819949. Qed.

Lemma prime_217003 : prime 217003.
Proof. apply (trial_prime 3000); [lia|vm_compute; reflexivity]. Qed.

Definition mN_9 : Z -> Z := fun q => 1764234391 * q.
Definition steps_9 : list (nat * positive) := [(0%nat, 8130%positive); (1%nat, 217003%positive)].
Definition qs_9 : list (Z * nat * Z * Z) := [(217003, 1%nat, 1717282535, 1580657609)].
Definition certs_9 : list (list (Z * Z)) := Eval vm_compute in table_cert 1764234391 steps_9 [2].
Lemma prime_1764234391 : prime 1764234391.
Proof.
  apply (poc_sound 1764234391 mN_9 2 steps_9 certs_9 qs_9).
  - reflexivity.
  - vm_cast_no_check (eq_refl true).
  - reflexivity.
  - unfold qs_9; cbn [map fst]; repeat (apply Forall_cons; [first [apply prime_217003]|]); apply Forall_nil.
Qed.

Definition mN_10 : Z -> Z := fun q => 34741861125639557 * q.
Definition steps_10 : list (nat * positive) := [(0%nat, 19692316%positive); (1%nat, 1764234391%positive)].
Definition qs_10 : list (Z * nat * Z * Z) := [(1764234391, 1%nat, 30460684132543118, 8594809027488471)].
Definition certs_10 : list (list (Z * Z)) := Eval vm_compute in table_cert 34741861125639557 steps_10 [2].
Lemma prime_34741861125639557 : prime 34741861125639557.
Proof.
  apply (poc_sound 34741861125639557 mN_10 2 steps_10 certs_10 qs_10).
  - reflexivity.
  - vm_cast_no_check (eq_refl true).
  - reflexivity.
  - unfold qs_10; cbn [map fst]; repeat (apply Forall_cons; [first [apply prime_1764234391]|]); apply Forall_nil.
Qed.

Definition mN_11 : Z -> Z := fun q => 36131535570665139281 * q.
Definition steps_11 : list (nat * positive) := [(0%nat, 1040%positive); (1%nat, 34741861125639557%positive)].
Definition qs_11 : list (Z * nat * Z * Z) := [(34741861125639557, 1%nat, 34937251657578275575, 32819767127687830379)].
Definition certs_11 : list (list (Z * Z)) := Eval vm_compute in table_cert 36131535570665139281 steps_11 [2].
Lemma prime_36131535570665139281 : prime 36131535570665139281.
Proof.
  apply (poc_sound 36131535570665139281 mN_11 2 steps_11 certs_11 qs_11).
  - reflexivity.
  - vm_cast_no_check (eq_refl true).
  - reflexivity.
  - unfold qs_11; cbn [map fst]; repeat (apply Forall_cons; [first [apply prime_34741861125639557]|]); apply Forall_nil.
Qed.

Definition mN_12 : Z -> Z := fun q => 596242599987116128415063 * q.
Definition steps_12 : list (nat * positive) := [(0%nat, 16502%positive); (1%nat, 36131535570665139281%positive)].
Definition qs_12 : list (Z * nat * Z * Z) := [(36131535570665139281, 1%nat, 465801323734362530676345, 192544103024408228245378)].
Definition certs_12 : list (list (Z * Z)) := Eval vm_compute in table_cert 596242599987116128415063 steps_12 [3].
Lemma prime_596242599987116128415063 : prime 596242599987116128415063.
Proof.
  apply (poc_sound 596242599987116128415063 mN_12 3 steps_12 certs_12 qs_12).
  - reflexivity.
  - vm_cast_no_check (eq_refl true).
  - reflexivity.
  - unfold qs_12; cbn [map fst]; repeat (apply Forall_cons; [first [apply prime_36131535570665139281]|]); apply Forall_nil.
Qed.

Lemma prime_1609403 : prime 1609403.
Proof. apply (trial_prime 3000); [lia|vm_compute; reflexivity]. Qed.

Definition mN_13 : Z -> Z := fun q => 3402277943 * q.
Definition steps_13 : list (nat * positive) := [(0%nat, 2114%positive); (1%nat, 1609403%positive)].
Definition qs_13 : list (Z * nat * Z * Z) := [(1609403, 1%nat, 460393886, 205867359)].
Definition certs_13 : list (list (Z * Z)) := Eval vm_compute in table_cert 3402277943 steps_13 [2].
Lemma prime_3402277943 : prime 3402277943.
Proof.
  apply (poc_sound 3402277943 mN_13 2 steps_13 certs_13 qs_13).
  - reflexivity.
  - vm_cast_no_check (eq_refl true).
  - reflexivity.
  - unfold qs_13; cbn [map fst]; repeat (apply Forall_cons; [first [apply prime_1609403]|]); apply Forall_nil.
Qed.

Lemma prime_411743 : prime 411743.
Proof. apply (trial_prime 3000); [lia|vm_compute; reflexivity]. Qed.

Definition mN_14 : Z -> Z := fun q => 1469495262398780123809 * q.
Definition steps_14 : list (nat * positive) := [(0%nat, 1048992%positive); (1%nat, 411743%positive); (1%nat, 3402277943%positive); (3%nat, 411743%positive)].
Definition qs_14 : list (Z * nat * Z * Z) := [(3402277943, 2%nat, 821496794483229310562, 426238062470233018617); (411743, 3%nat, 456694306092073525511, 112549128463379556136)].
Definition certs_14 : list (list (Z * Z)) := Eval vm_compute in table_cert 1469495262398780123809 steps_14 [3].
Lemma prime_1469495262398780123809 : prime 1469495262398780123809.
Proof.
  apply (poc_sound 1469495262398780123809 mN_14 3 steps_14 certs_14 qs_14).
  - reflexivity.
  - vm_cast_no_check (eq_refl true).
  - reflexivity.
  - unfold qs_14; cbn [map fst]; repeat (apply Forall_cons; [first [apply prime_3402277943|apply prime_411743]|]); apply Forall_nil.
Qed.

Lemma prime_17449 : prime 17449.
Proof. apply (trial_prime 3000); [lia|vm_compute; reflexivity]. Qed.

Definition mN_15 : Z -> Z := fun q => 6700417 * q.
Definition steps_15 : list (nat * positive) := [(0%nat, 384%positive); (1%nat, 17449%positive)].
Definition qs_15 : list (Z * nat * Z * Z) := [(17449, 1%nat, 4499094, 3925745)].
Definition certs_15 : list (list (Z * Z)) := Eval vm_compute in table_cert 6700417 steps_15 [3].
Lemma prime_6700417 : prime 6700417.
Proof.
  apply (poc_sound 6700417 mN_15 3 steps_15 certs_15 qs_15).
  - reflexivity.
  - vm_cast_no_check (eq_refl true).
  - reflexivity.
  - unfold qs_15; cbn [map fst]; repeat (apply Forall_cons; [first [apply prime_17449]|]); apply Forall_nil.
Qed.

Lemma prime_2916841 : prime 2916841.
Proof. apply (trial_prime 3000); [lia|vm_compute; reflexivity]. Qed.

Lemma prime_1466449 : prime 1466449.
Proof. apply (trial_prime 3000); [lia|vm_compute; reflexivity]. Qed.

Lemma prime_196687 : prime 196687.
Proof. apply (trial_prime 3000); [lia|vm_compute; reflexivity]. Qed.

Definition mN_16 : Z -> Z := fun q => sh 448 q - sh 224 q - q.
Definition steps_16 : list (nat * positive) := [(0%nat, 147159958761427460387935767250404858721122121221708872436429470174%positive); (1%nat, 14438995658851978994096860501328497%positive); (2%nat, 573704705767%positive); (2%nat, 596242599987116128415063%positive); (4%nat, 196687%positive); (4%nat, 2916841%positive); (1%nat, 342067185391359536443223906465768321%positive); (7%nat, 9825819809233%positive); (7%nat, 1469495262398780123809%positive); (9%nat, 1466449%positive); (9%nat, 6700417%positive); (6%nat, 196687%positive)].
Definition qs_16 : list (Z * nat * Z * Z) := [(596242599987116128415063, 3%nat, 622143034522204649195295391496844845148580674104142999054667679714261380717200767300452778319734914841204185644938301518028430773008897, 162634838418305171810419957731465599506082049463418767225013924473751043789071156626257734079879715733319116829625689007091363446640329); (1469495262398780123809, 8%nat, 568338057292267552371108856747199352093545530096206425813601970193325208778398175009479935152378978120934444243955352229983296395177675, 63728292325604425975209176873022736759750597768684191165469836964191991645972476453475102434227544507388046422346803587514077206718316); (6700417, 10%nat, 87459619211994745206270770130992218988597292295778604333354984342184077292278799974084005379836033226200106937952444083486161433917724, 6693300204560095718508599935637550336389695266484204426489981494817149334578585028692250441253672821904610091849394501954127151343941); (2916841, 5%nat, 224727793462445802960113145470422745206264011147828621309985773328387197089032897367111714596838612299834071493681332356887506889572046, 86540717329588685841097170895582822297666868186359431522989067094145412219781810946469115343091462871834479865465221404743838617701123); (1466449, 11%nat, 420530913449504153586741746572499081500529816263994514998807225993625649124658326005316996368666649774090263507555646928009261784492947, 314329709036280125944913062653485118930760593434972370937826433516966375757996242134805161628818742176933846113302366629440743893216851); (196687, 6%nat, 7658891670655526345703342435501597895632018584107763363441279599257555340477876791500468955555710453258696348921285912605403531357097, 2943513347451110318667305784575727668055536856252856944282186649169532892435043694931177424088332157397349443700322900902608572612271)].
Definition certs_16 : list (list (Z * Z)) := Eval vm_compute in table_cert 726838724295606890549323807888004534353641360687318060281490199180612328166730772686396383698676545930088884461843637361053498018365439 steps_16 [2].
Lemma prime_726838724295606890549323807888004534353641360687318060281490199180612328166730772686396383698676545930088884461843637361053498018365439 : prime 726838724295606890549323807888004534353641360687318060281490199180612328166730772686396383698676545930088884461843637361053498018365439.
Proof.
  apply (poc_sound 726838724295606890549323807888004534353641360687318060281490199180612328166730772686396383698676545930088884461843637361053498018365439 mN_16 2 steps_16 certs_16 qs_16).
  - intros q Hq; unfold mN_16; rewrite !sh_eq by auto; ring.
  - vm_cast_no_check (eq_refl true).
  - reflexivity.
  - unfold qs_16; cbn [map fst]; repeat (apply Forall_cons; [first [apply prime_596242599987116128415063|apply prime_1469495262398780123809|apply prime_6700417|apply prime_2916841|apply prime_1466449|apply prime_196687]|]); apply Forall_nil.
Qed.

Theorem prime_p448 : prime (2 ^ 448 - 2 ^ 224 - 1).
Proof. exact prime_726838724295606890549323807888004534353641360687318060281490199180612328166730772686396383698676545930088884461843637361053498018365439. Qed.

Lemma prime_1224481 : prime 1224481.
Proof. apply (trial_prime 3000); [lia|vm_compute; reflexivity]. Qed.

Lemma prime_531581 : prime 531581.
Proof. apply (trial_prime 3000); [lia|vm_compute; reflexivity]. Qed.

Definition mN_17 : Z -> Z := fun q => 1257559732178653 * q.
Definition steps_17 : list (nat * positive) := [(0%nat, 1932%positive); (1%nat, 531581%positive); (1%nat, 1224481%positive); (3%nat, 531581%positive)].
Definition qs_17 : list (Z * nat * Z * Z) := [(1224481, 2%nat, 790900187493841, 787868792026441); (531581, 3%nat, 212927577457398, 192995844966701)].
Definition certs_17 : list (list (Z * Z)) := Eval vm_compute in table_cert 1257559732178653 steps_17 [2].
Lemma prime_1257559732178653 : prime 1257559732178653.
Proof.
  apply (poc_sound 1257559732178653 mN_17 2 steps_17 certs_17 qs_17).
  - reflexivity.
  - vm_cast_no_check (eq_refl true).
  - reflexivity.
  - unfold qs_17; cbn [map fst]; repeat (apply Forall_cons; [first [apply prime_1224481|apply prime_531581]|]); apply Forall_nil.
Qed.

Definition mN_18 : Z -> Z := fun q => 4434155615661930479 * q.
Definition steps_18 : list (nat * positive) := [(0%nat, 3526%positive); (1%nat, 1257559732178653%positive)].
Definition qs_18 : list (Z * nat * Z * Z) := [(1257559732178653, 1%nat, 1010501025739283171, 94754006754933215)].
Definition certs_18 : list (list (Z * Z)) := Eval vm_compute in table_cert 4434155615661930479 steps_18 [2].
Lemma prime_4434155615661930479 : prime 4434155615661930479.
Proof.
  apply (poc_sound 4434155615661930479 mN_18 2 steps_18 certs_18 qs_18).
  - reflexivity.
  - vm_cast_no_check (eq_refl true).
  - reflexivity.
  - unfold qs_18; cbn [map fst]; repeat (apply Forall_cons; [first [apply prime_1257559732178653]|]); apply Forall_nil.
Qed.

Definition mN_19 : Z -> Z := fun q => 172054593956031949258510691 * q.
Definition steps_19 : list (nat * positive) := [(0%nat, 38802110%positive); (1%nat, 4434155615661930479%positive)].
Definition qs_19 : list (Z * nat * Z * Z) := [(4434155615661930479, 1%nat, 154275350521713489305385904, 73510611687487158067405653)].
Definition certs_19 : list (list (Z * Z)) := Eval vm_compute in table_cert 172054593956031949258510691 steps_19 [2].
Lemma prime_172054593956031949258510691 : prime 172054593956031949258510691.
Proof.
  apply (poc_sound 172054593956031949258510691 mN_19 2 steps_19 certs_19 qs_19).
  - reflexivity.
  - vm_cast_no_check (eq_refl true).
  - reflexivity.
  - unfold qs_19; cbn [map fst]; repeat (apply Forall_cons; [first [apply prime_4434155615661930479]|]); apply Forall_nil.
Qed.

Definition mN_20 : Z -> Z := fun q => 19757330305831588566944191468367130476339 * q.
Definition steps_20 : list (nat * positive) := [(0%nat, 114831751082918%positive); (1%nat, 172054593956031949258510691%positive)].
Definition qs_20 : list (Z * nat * Z * Z) := [(172054593956031949258510691, 1%nat, 16371654433361644093796961727196399386194, 7580999557119167215323054323116539631207)].
Definition certs_20 : list (list (Z * Z)) := Eval vm_compute in table_cert 19757330305831588566944191468367130476339 steps_20 [2].
Lemma prime_19757330305831588566944191468367130476339 : prime 19757330305831588566944191468367130476339.
Proof.
  apply (poc_sound 19757330305831588566944191468367130476339 mN_20 2 steps_20 certs_20 qs_20).
  - reflexivity.
  - vm_cast_no_check (eq_refl true).
  - reflexivity.
  - unfold qs_20; cbn [map fst]; repeat (apply Forall_cons; [first [apply prime_172054593956031949258510691]|]); apply Forall_nil.
Qed.

Definition mN_21 : Z -> Z := fun q => 276602624281642239937218680557139826668747 * q.
Definition steps_21 : list (nat * positive) := [(0%nat, 14%positive); (1%nat, 19757330305831588566944191468367130476339%positive)].
Definition qs_21 : list (Z * nat * Z * Z) := [(19757330305831588566944191468367130476339, 1%nat, 94074944912245044309966580483695483989395, 5572)].
Definition certs_21 : list (list (Z * Z)) := Eval vm_compute in table_cert 276602624281642239937218680557139826668747 steps_21 [2].
Lemma prime_276602624281642239937218680557139826668747 : prime 276602624281642239937218680557139826668747.
Proof.
  apply (poc_sound 276602624281642239937218680557139826668747 mN_21 2 steps_21 certs_21 qs_21).
  - reflexivity.
  - vm_cast_no_check (eq_refl true).
  - reflexivity.
  - unfold qs_21; cbn [map fst]; repeat (apply Forall_cons; [first [apply prime_19757330305831588566944191468367130476339]|]); apply Forall_nil.
Qed.

Definition mN_22 : Z -> Z := fun q => 7237005577332262213973186563042994240857116359379907606001950938285454250989 * q.
Definition steps_22 : list (nat * positive) := [(0%nat, 26163907866482859529727157400808004%positive); (1%nat, 276602624281642239937218680557139826668747%positive)].
Definition qs_22 : list (Z * nat * Z * Z) := [(276602624281642239937218680557139826668747, 1%nat, 2233364593245673852815932892735013076939656528578070433728021143254617821614, 918259049265850385831298250211759012539362291049224222049079815310237912731)].
Definition certs_22 : list (list (Z * Z)) := Eval vm_compute in table_cert 7237005577332262213973186563042994240857116359379907606001950938285454250989 steps_22 [2].
Lemma prime_7237005577332262213973186563042994240857116359379907606001950938285454250989 : prime 7237005577332262213973186563042994240857116359379907606001950938285454250989.
Proof.
  apply (poc_sound 7237005577332262213973186563042994240857116359379907606001950938285454250989 mN_22 2 steps_22 certs_22 qs_22).
  - reflexivity.
  - vm_cast_no_check (eq_refl true).
  - reflexivity.
  - unfold qs_22; cbn [map fst]; repeat (apply Forall_cons; [first [apply prime_276602624281642239937218680557139826668747]|]); apply Forall_nil.
Qed.

Theorem prime_ell25519 : prime (2 ^ 252 + 27742317777372353535851937790883648493).
Proof. exact prime_7237005577332262213973186563042994240857116359379907606001950938285454250989. Qed.
