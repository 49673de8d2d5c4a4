(** Consequences of the equality with the standards, in the form used by the property theorems. *)
From Coq Require Import ZArith List Lia.
From Verif Require Import Bytes SpecSha2 Sha512 Sha512Proofs SpecSha3 Sha3 Sha3Proofs.
Import ListNotations.
Open Scope Z_scope.

(** A SHA-512 context: the buffer has 128 bytes, the other fields are arbitrary *)
Definition clean (c : ctx) : Prop := bytes 128 (buf c).
Lemma sha512_fips c pieces : clean c -> Forall (Forall byte) pieces -> Z.of_nat (length (concat pieces)) < 2 ^ 64 ->
  fst (sph_sha512_close (sph_sha512_all (sph_sha512_init c) pieces)) = SHA512_fips (concat pieces) /\ bytes 64 (SHA512_fips (concat pieces)).
Proof. intros [L F] Fp HL. split; [apply sha512_chunks; assumption|apply sha512_bytes]. Qed.
Lemma sha512_pieces c c' pieces pieces' : clean c -> clean c' -> Forall (Forall byte) pieces -> Forall (Forall byte) pieces' ->
  concat pieces = concat pieces' -> Z.of_nat (length (concat pieces)) < 2 ^ 64 ->
  fst (sph_sha512_close (sph_sha512_all (sph_sha512_init c) pieces)) = fst (sph_sha512_close (sph_sha512_all (sph_sha512_init c') pieces')).
Proof.
  intros Hc Hc' F F' E HL. rewrite (proj1 (sha512_fips c pieces Hc F HL)). rewrite E in HL.
  rewrite (proj1 (sha512_fips c' pieces' Hc' F' HL)). rewrite E. reflexivity.
Qed.
Lemma close_clean c M : absorbed c M -> exists c', snd (sph_sha512_close c) = sph_sha512_init c' /\ clean c'.
Proof.
  intros (q & A & B & -> & LA & LB & FM & Lb & Fb & EB & EV & EC).
  assert (CU : current_of c = length B) by (apply (current_ok c q A B LA LB); exact EC).
  assert (F128 : Forall byte [128]) by (constructor; [unfold byte; lia|constructor]).
  unfold sph_sha512_close. rewrite CU. cbv zeta.
  set (b1 := store_at (buf c) (length B) [128]).
  assert (L1 : length b1 = 128%nat) by (unfold b1; rewrite store_length by (cbn [length]; lia); exact Lb).
  assert (F1 : Forall byte b1) by (apply store_bytes; assumption). clearbody b1.
  assert (FIN : forall b v, length b = 128%nat -> Forall byte b ->
    exists c', snd (flat_map enc64be v, sph_sha512_init (Ctx (store_at (store_at b 112 (enc64be (Z.shiftr (count c) 61))) 120 (enc64be (T64 (shl64 (count c) 3)))) v (count c))) = sph_sha512_init c' /\ clean c').
  { intros b v L F. eexists. split; [reflexivity|]. unfold clean. cbn [buf]. split.
    - rewrite !store_length; rewrite ?store_length; rewrite ?enc_len; lia.
    - apply store_bytes; [apply store_bytes|]; try apply enc_bytes. exact F. }
  destruct (112 <? length B + 1)%nat eqn:G; [apply PeanoNat.Nat.ltb_lt in G|apply PeanoNat.Nat.ltb_ge in G].
  - apply FIN.
    + rewrite !store_length; rewrite ?store_length; rewrite ?repeat_length; lia.
    + apply store_bytes; [apply store_bytes; [exact F1|apply zeros_byte]|apply zeros_byte].
  - apply FIN.
    + rewrite store_length; rewrite ?repeat_length; lia.
    + apply store_bytes; [exact F1|apply zeros_byte].
Qed.
Lemma sha512_again c pieces : clean c -> Forall (Forall byte) pieces -> Z.of_nat (length (concat pieces)) < 2 ^ 64 ->
  forall pieces', Forall (Forall byte) pieces' -> Z.of_nat (length (concat pieces')) < 2 ^ 64 ->
  fst (sph_sha512_close (sph_sha512_all (snd (sph_sha512_close (sph_sha512_all (sph_sha512_init c) pieces))) pieces')) = SHA512_fips (concat pieces').
Proof.
  intros [L F] Fp HL pieces' Fp' HL'.
  destruct (close_clean (sph_sha512_all (sph_sha512_init c) pieces) (concat pieces)) as (c' & E & Hc').
  { apply (all_ok pieces _ []); [apply absorbed_init; assumption|exact Fp]. }
  rewrite E. apply (sha512_fips c' pieces' Hc' Fp' HL').
Qed.
Lemma shake256_fips m d : Forall byte m -> SHAKE256 m d = SHAKE256_fips m d /\ bytes d (SHAKE256_fips m d).
Proof. intros F. split; [apply shake256_oneshot; exact F|]. apply shake_bytes; [lia|exact F]. Qed.
Lemma shake256_pieces pieces d : Forall (Forall byte) pieces -> 8 * Z.of_nat (136 + length (concat pieces)) < 2 ^ 64 ->
  Final2 (Update_all (Init 256) pieces) d = SHAKE256 (concat pieces) d.
Proof.
  intros F HL. rewrite shake256_chunks by assumption. symmetry. apply shake256_oneshot.
  induction F as [|x l Hx F IH]; [constructor|]. cbn [concat]. apply Forall_app. split; [exact Hx|]. apply IH. cbn [concat] in HL. rewrite app_length in HL. lia.
Qed.
Lemma pieces_case : let m := repeat 7%Z 300%nat in Forall (Forall byte) [firstn 1 m; []; skipn 1 m] /\ concat [firstn 1 m; []; skipn 1 m] = concat [m] /\
  Z.of_nat (length (concat [m])) < 2 ^ 64 /\ (128 < length m)%nat.
Proof.
  cbv zeta. assert (F : forall n, Forall byte (repeat 7 n)) by (intros n; apply Forall_forall; intros x Hx; apply repeat_spec in Hx; subst; unfold byte; lia).
  split; [|split; [reflexivity|split; [reflexivity|rewrite repeat_length; lia]]].
  constructor; [apply Forall_first; apply F|]. constructor; [constructor|]. constructor; [apply Forall_skip; apply F|constructor].
Qed.
Lemma abc512 : clean (Ctx (repeat 0 128) [] 0) /\ firstn 8 (SHA512_fips [97; 98; 99]) = [0xdd; 0xaf; 0x35; 0xa1; 0x93; 0x61; 0x7a; 0xba].
Proof.
  split; [split; [reflexivity|apply zeros_byte]|].
  pose proof (proj1 (sha512_fips (Ctx (repeat 0 128) [] 0) [[97; 98; 99]] (conj eq_refl (zeros_byte 128)) ltac:(repeat constructor; unfold byte; lia) ltac:(cbn; lia))) as E.
  change (concat [[97; 98; 99]]) with [97; 98; 99] in E. rewrite <- E. vm_compute. reflexivity.
Qed.
Lemma abc_shake : SHAKE256_fips [97; 98; 99] 4 = [0x48; 0x33; 0x66; 0x60].
Proof. rewrite <- shake256_oneshot by (repeat constructor; unfold byte; lia). vm_compute. reflexivity. Qed.
