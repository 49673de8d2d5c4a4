(** Specification-level statements of the contracts of the vector code. *)
From Coq Require Import ZArith Znumtheory List Bool Lia.
From Verif Require Import Uop Poly Sym Engine Check Bytes FullTac Simd Simd255 Simd448 Lanes RedTac Moves
  X86 Asm25519 Asm448 Fp25519Full Fp448Full Fp25519Red Fp448Red Fp25519FullProofs Fp448FullProofs Fp25519RedProofs Fp25519RedMore
  Fp25519RedRoot Fp448RedProofs Fp448RedMore Fp448RedRoot FullMore Spec SpecVec RedProps.
Import ListNotations.
Open Scope Z_scope.
Local Opaque call ser_1w unser_1w ser448_1w unser448_1w.

Lemma computes1_ext w n pos p f1 g f f' op : (forall x, f x = f' x) -> computes1 w n pos p f1 g f op -> computes1 w n pos p f1 g f' op.
Proof. intros E H a Ha. destruct (H a Ha) as [B V]. split; [exact B|]. intros j Hj. rewrite <- E. exact (V j Hj). Qed.
Lemma sq_pow x : x * x = x ^ 2. Proof. symmetry. apply Z.pow_2_r. Qed.

Lemma spec_255_C14_add_1w : forall st, computes2 1 10 pos255 P25519 reduced255 reduced255 unreduced255 Z.add (add_1w st).
Proof. intro st. exact (two_1 10 pos255 P25519 wt255 value255_ok red255 red255 wide255 reduced255 reduced255 unreduced255 red255_below red255_below wide255_below ltac:(discriminate) Z.add (add_1w st) (add_1w_ok st)). Qed.
Lemma spec_255_C14_sub_1w : forall st, computes2 1 10 pos255 P25519 reduced255 reduced255 unreduced255 Z.sub (sub_1w st).
Proof. intro st. exact (two_1 10 pos255 P25519 wt255 value255_ok red255 red255 wide255 reduced255 reduced255 unreduced255 red255_below red255_below wide255_below ltac:(discriminate) Z.sub (sub_1w st) (sub_1w_ok st)). Qed.
Lemma spec_255_C14_neg_1w : forall st, computes1 1 10 pos255 P25519 reduced255 unreduced255 Z.opp (neg_1w st).
Proof. intro st. exact (one_1 10 pos255 P25519 wt255 value255_ok red255 wide255 reduced255 unreduced255 red255_below wide255_below ltac:(discriminate) Z.opp (neg_1w st) (neg_1w_ok st)). Qed.
Lemma spec_255_C14_addsub_1_1w : forall st, computes2 1 10 pos255 P25519 reduced255 reduced255 unreduced255 Z.add (fun a b => fst (addsub_1w st a b)).
Proof. intro st. exact (two_1 10 pos255 P25519 wt255 value255_ok red255 red255 wide255 reduced255 reduced255 unreduced255 red255_below red255_below wide255_below ltac:(discriminate) Z.add (fun a b => fst (addsub_1w st a b)) (addsub_1w_ok1 st)). Qed.
Lemma spec_255_C14_addsub_2_1w : forall st, computes2 1 10 pos255 P25519 reduced255 reduced255 unreduced255 Z.sub (fun a b => snd (addsub_1w st a b)).
Proof. intro st. exact (two_1 10 pos255 P25519 wt255 value255_ok red255 red255 wide255 reduced255 reduced255 unreduced255 red255_below red255_below wide255_below ltac:(discriminate) Z.sub (fun a b => snd (addsub_1w st a b)) (addsub_1w_ok2 st)). Qed.
Lemma spec_255_C15_mul_1w : forall st, computes2 1 10 pos255 P25519 unreduced255 unreduced255 reduced255 Z.mul (mul_1w st).
Proof. intro st. exact (two_1 10 pos255 P25519 wt255 value255_ok wide255 wide255 red255 unreduced255 unreduced255 reduced255 wide255_below wide255_below red255_below ltac:(discriminate) Z.mul (mul_1w st) (mul_1w_ok st)). Qed.
Lemma spec_255_C16_sqr_1w : forall st, computes1 1 10 pos255 P25519 unreduced255 reduced255 (fun x => x ^ 2) (sqr_1w st).
Proof. intro st. refine (computes1_ext _ _ _ _ _ _ _ _ _ sq_pow _). exact (one_1 10 pos255 P25519 wt255 value255_ok wide255 red255 unreduced255 reduced255 wide255_below red255_below ltac:(discriminate) (fun x => x * x) (sqr_1w st) (sqr_1w_ok st)). Qed.
Lemma spec_255_C17_compress_1w : forall st, computes1 1 10 pos255 P25519 double255 reduced255 (fun x => x) (compress_1w st).
Proof. intro st. exact (one_1 10 pos255 P25519 wt255 value255_ok big255 red255 double255 reduced255 big255_below red255_below ltac:(discriminate) (fun x => x) (compress_1w st) (compress_1w_ok st)). Qed.
Lemma spec_255_C17_compressfast_1w : forall st, computes1 1 10 pos255 P25519 unreduced255 reduced255 (fun x => x) (compressfast_1w st).
Proof. intro st. exact (one_1 10 pos255 P25519 wt255 value255_ok wide255 red255 unreduced255 reduced255 wide255_below red255_below ltac:(discriminate) (fun x => x) (compressfast_1w st) (compressfast_1w_red st)). Qed.
Lemma spec_255_C14_add_2w : forall st, computes2 2 10 pos255 P25519 reduced255 reduced255 unreduced255 Z.add (add_2w st).
Proof. intro st. exact (two_2 10 pos255 P25519 wt255 value255_ok red255 red255 wide255 reduced255 reduced255 unreduced255 red255_below red255_below wide255_below ltac:(discriminate) Z.add (add_2w st) (fun a b => call_length _ _ _ _ _) (add_2w_ok st)). Qed.
Lemma spec_255_C14_sub_2w : forall st, computes2 2 10 pos255 P25519 reduced255 reduced255 unreduced255 Z.sub (sub_2w st).
Proof. intro st. exact (two_2 10 pos255 P25519 wt255 value255_ok red255 red255 wide255 reduced255 reduced255 unreduced255 red255_below red255_below wide255_below ltac:(discriminate) Z.sub (sub_2w st) (fun a b => call_length _ _ _ _ _) (sub_2w_ok st)). Qed.
Lemma spec_255_C14_neg_2w : forall st, computes1 2 10 pos255 P25519 reduced255 unreduced255 Z.opp (neg_2w st).
Proof. intro st. exact (one_2 10 pos255 P25519 wt255 value255_ok red255 wide255 reduced255 unreduced255 red255_below wide255_below ltac:(discriminate) Z.opp (neg_2w st) (fun a => call_length _ _ _ _ _) (neg_2w_ok st)). Qed.
Lemma spec_255_C14_addsub_1_2w : forall st, computes2 2 10 pos255 P25519 reduced255 reduced255 unreduced255 Z.add (fun a b => fst (addsub_2w st a b)).
Proof. intro st. exact (two_2 10 pos255 P25519 wt255 value255_ok red255 red255 wide255 reduced255 reduced255 unreduced255 red255_below red255_below wide255_below ltac:(discriminate) Z.add (fun a b => fst (addsub_2w st a b)) (fun a b => call_length _ _ _ _ _) (addsub_2w_ok1 st)). Qed.
Lemma spec_255_C14_addsub_2_2w : forall st, computes2 2 10 pos255 P25519 reduced255 reduced255 unreduced255 Z.sub (fun a b => snd (addsub_2w st a b)).
Proof. intro st. exact (two_2 10 pos255 P25519 wt255 value255_ok red255 red255 wide255 reduced255 reduced255 unreduced255 red255_below red255_below wide255_below ltac:(discriminate) Z.sub (fun a b => snd (addsub_2w st a b)) (fun a b => call_length _ _ _ _ _) (addsub_2w_ok2 st)). Qed.
Lemma spec_255_C15_mul_2w : forall st, computes2 2 10 pos255 P25519 unreduced255 unreduced255 reduced255 Z.mul (mul_2w st).
Proof. intro st. exact (two_2 10 pos255 P25519 wt255 value255_ok wide255 wide255 red255 unreduced255 unreduced255 reduced255 wide255_below wide255_below red255_below ltac:(discriminate) Z.mul (mul_2w st) (fun a b => call_length _ _ _ _ _) (mul_2w_ok st)). Qed.
Lemma spec_255_C16_sqr_2w : forall st, computes1 2 10 pos255 P25519 unreduced255 reduced255 (fun x => x ^ 2) (sqr_2w st).
Proof. intro st. refine (computes1_ext _ _ _ _ _ _ _ _ _ sq_pow _). exact (one_2 10 pos255 P25519 wt255 value255_ok wide255 red255 unreduced255 reduced255 wide255_below red255_below ltac:(discriminate) (fun x => x * x) (sqr_2w st) (fun a => call_length _ _ _ _ _) (sqr_2w_ok st)). Qed.
Lemma spec_255_C17_compress_2w : forall st, computes1 2 10 pos255 P25519 double255 reduced255 (fun x => x) (compress_2w st).
Proof. intro st. exact (one_2 10 pos255 P25519 wt255 value255_ok big255 red255 double255 reduced255 big255_below red255_below ltac:(discriminate) (fun x => x) (compress_2w st) (fun a => call_length _ _ _ _ _) (compress_2w_ok st)). Qed.
Lemma spec_255_C17_compressfast_2w : forall st, computes1 2 10 pos255 P25519 unreduced255 reduced255 (fun x => x) (compressfast_2w st).
Proof. intro st. exact (one_2 10 pos255 P25519 wt255 value255_ok wide255 red255 unreduced255 reduced255 wide255_below red255_below ltac:(discriminate) (fun x => x) (compressfast_2w st) (fun a => call_length _ _ _ _ _) (compressfast_2w_red st)). Qed.
Lemma spec_255_C17_compress2_1_2w : forall st, computes2 2 10 pos255 P25519 double255 double255 reduced255 (fun x _ => x) (fun a b => fst (compress2_2w st a b)).
Proof. intro st. exact (two_2 10 pos255 P25519 wt255 value255_ok big255 big255 red255 double255 double255 reduced255 big255_below big255_below red255_below ltac:(discriminate) (fun x _ => x) (fun a b => fst (compress2_2w st a b)) (fun a b => call_length _ _ _ _ _) (compress2_2w_ok1 st)). Qed.
Lemma spec_255_C17_compress2_2_2w : forall st, computes2 2 10 pos255 P25519 double255 double255 reduced255 (fun _ y => y) (fun a b => snd (compress2_2w st a b)).
Proof. intro st. exact (two_2 10 pos255 P25519 wt255 value255_ok big255 big255 red255 double255 double255 reduced255 big255_below big255_below red255_below ltac:(discriminate) (fun _ y => y) (fun a b => snd (compress2_2w st a b)) (fun a b => call_length _ _ _ _ _) (compress2_2w_ok2 st)). Qed.
Lemma spec_255_C14_add_4w : forall st, computes2 4 10 pos255 P25519 reduced255 reduced255 unreduced255 Z.add (add_4w st).
Proof. intro st. exact (two_4 10 pos255 P25519 wt255 value255_ok red255 red255 wide255 reduced255 reduced255 unreduced255 red255_below red255_below wide255_below ltac:(discriminate) Z.add (add_4w st) (fun a b => call_length _ _ _ _ _) (add_4w_ok st)). Qed.
Lemma spec_255_C14_sub_4w : forall st, computes2 4 10 pos255 P25519 reduced255 reduced255 unreduced255 Z.sub (sub_4w st).
Proof. intro st. exact (two_4 10 pos255 P25519 wt255 value255_ok red255 red255 wide255 reduced255 reduced255 unreduced255 red255_below red255_below wide255_below ltac:(discriminate) Z.sub (sub_4w st) (fun a b => call_length _ _ _ _ _) (sub_4w_ok st)). Qed.
Lemma spec_255_C14_neg_4w : forall st, computes1 4 10 pos255 P25519 reduced255 unreduced255 Z.opp (neg_4w st).
Proof. intro st. exact (one_4 10 pos255 P25519 wt255 value255_ok red255 wide255 reduced255 unreduced255 red255_below wide255_below ltac:(discriminate) Z.opp (neg_4w st) (fun a => call_length _ _ _ _ _) (neg_4w_ok st)). Qed.
Lemma spec_255_C14_addsub_1_4w : forall st, computes2 4 10 pos255 P25519 reduced255 reduced255 unreduced255 Z.add (fun a b => fst (addsub_4w st a b)).
Proof. intro st. exact (two_4 10 pos255 P25519 wt255 value255_ok red255 red255 wide255 reduced255 reduced255 unreduced255 red255_below red255_below wide255_below ltac:(discriminate) Z.add (fun a b => fst (addsub_4w st a b)) (fun a b => call_length _ _ _ _ _) (addsub_4w_ok1 st)). Qed.
Lemma spec_255_C14_addsub_2_4w : forall st, computes2 4 10 pos255 P25519 reduced255 reduced255 unreduced255 Z.sub (fun a b => snd (addsub_4w st a b)).
Proof. intro st. exact (two_4 10 pos255 P25519 wt255 value255_ok red255 red255 wide255 reduced255 reduced255 unreduced255 red255_below red255_below wide255_below ltac:(discriminate) Z.sub (fun a b => snd (addsub_4w st a b)) (fun a b => call_length _ _ _ _ _) (addsub_4w_ok2 st)). Qed.
Lemma spec_255_C15_mul_4w : forall st, computes2 4 10 pos255 P25519 unreduced255 unreduced255 reduced255 Z.mul (mul_4w st).
Proof. intro st. exact (two_4 10 pos255 P25519 wt255 value255_ok wide255 wide255 red255 unreduced255 unreduced255 reduced255 wide255_below wide255_below red255_below ltac:(discriminate) Z.mul (mul_4w st) (fun a b => call_length _ _ _ _ _) (mul_4w_ok st)). Qed.
Lemma spec_255_C16_sqr_4w : forall st, computes1 4 10 pos255 P25519 unreduced255 reduced255 (fun x => x ^ 2) (sqr_4w st).
Proof. intro st. refine (computes1_ext _ _ _ _ _ _ _ _ _ sq_pow _). exact (one_4 10 pos255 P25519 wt255 value255_ok wide255 red255 unreduced255 reduced255 wide255_below red255_below ltac:(discriminate) (fun x => x * x) (sqr_4w st) (fun a => call_length _ _ _ _ _) (sqr_4w_ok st)). Qed.
Lemma spec_255_C17_compress_4w : forall st, computes1 4 10 pos255 P25519 double255 reduced255 (fun x => x) (compress_4w st).
Proof. intro st. exact (one_4 10 pos255 P25519 wt255 value255_ok big255 red255 double255 reduced255 big255_below red255_below ltac:(discriminate) (fun x => x) (compress_4w st) (fun a => call_length _ _ _ _ _) (compress_4w_ok st)). Qed.
Lemma spec_255_C17_compressfast_4w : forall st, computes1 4 10 pos255 P25519 unreduced255 reduced255 (fun x => x) (compressfast_4w st).
Proof. intro st. exact (one_4 10 pos255 P25519 wt255 value255_ok wide255 red255 unreduced255 reduced255 wide255_below red255_below ltac:(discriminate) (fun x => x) (compressfast_4w st) (fun a => call_length _ _ _ _ _) (compressfast_4w_red st)). Qed.
Lemma spec_255_C17_compress2_1_4w : forall st, computes2 4 10 pos255 P25519 double255 double255 reduced255 (fun x _ => x) (fun a b => fst (compress2_4w st a b)).
Proof. intro st. exact (two_4 10 pos255 P25519 wt255 value255_ok big255 big255 red255 double255 double255 reduced255 big255_below big255_below red255_below ltac:(discriminate) (fun x _ => x) (fun a b => fst (compress2_4w st a b)) (fun a b => call_length _ _ _ _ _) (compress2_4w_ok1 st)). Qed.
Lemma spec_255_C17_compress2_2_4w : forall st, computes2 4 10 pos255 P25519 double255 double255 reduced255 (fun _ y => y) (fun a b => snd (compress2_4w st a b)).
Proof. intro st. exact (two_4 10 pos255 P25519 wt255 value255_ok big255 big255 red255 double255 double255 reduced255 big255_below big255_below red255_below ltac:(discriminate) (fun _ y => y) (fun a b => snd (compress2_4w st a b)) (fun a b => call_length _ _ _ _ _) (compress2_4w_ok2 st)). Qed.
Lemma spec_255_C17_new_compressfast2_1_4w : forall st, computes2 4 10 pos255 P25519 unreduced255 unreduced255 reduced255 (fun x _ => x) (fun a b => fst (new_compressfast2_4w st a b)).
Proof. intro st. exact (two_4 10 pos255 P25519 wt255 value255_ok wide255 wide255 red255 unreduced255 unreduced255 reduced255 wide255_below wide255_below red255_below ltac:(discriminate) (fun x _ => x) (fun a b => fst (new_compressfast2_4w st a b)) (fun a b => call_length _ _ _ _ _) (new_compressfast2_4w_red1 st)). Qed.
Lemma spec_255_C17_new_compressfast2_2_4w : forall st, computes2 4 10 pos255 P25519 unreduced255 unreduced255 reduced255 (fun _ y => y) (fun a b => snd (new_compressfast2_4w st a b)).
Proof. intro st. exact (two_4 10 pos255 P25519 wt255 value255_ok wide255 wide255 red255 unreduced255 unreduced255 reduced255 wide255_below wide255_below red255_below ltac:(discriminate) (fun _ y => y) (fun a b => snd (new_compressfast2_4w st a b)) (fun a b => call_length _ _ _ _ _) (new_compressfast2_4w_red2 st)). Qed.
Lemma spec_448_C26_mul_1w : forall st, computes2 1 16 pos448 P448 summed448 summed448 reduced448 Z.mul (mul448_1w st).
Proof. intro st. exact (two_1 16 pos448 P448 wt448 value448_ok mid448 mid448 red448 summed448 summed448 reduced448 mid448_below mid448_below red448_below ltac:(discriminate) Z.mul (mul448_1w st) (mul448_1w_ok st)). Qed.
Lemma spec_448_C26_mul_1w_wr : forall st, computes2 1 16 pos448 P448 differed448 reduced448 reduced448 Z.mul (mul448_1w st).
Proof. intro st. exact (two_1 16 pos448 P448 wt448 value448_ok wide448 red448 red448 differed448 reduced448 reduced448 wide448_below red448_below red448_below ltac:(discriminate) Z.mul (mul448_1w st) (mul448_1w_wr st)). Qed.
Lemma spec_448_C26_mul_1w_rw : forall st, computes2 1 16 pos448 P448 reduced448 differed448 reduced448 Z.mul (mul448_1w st).
Proof. intro st. exact (two_1 16 pos448 P448 wt448 value448_ok red448 wide448 red448 reduced448 differed448 reduced448 red448_below wide448_below red448_below ltac:(discriminate) Z.mul (mul448_1w st) (mul448_1w_rw st)). Qed.
Lemma spec_448_C26_sqr_1w : forall st, computes1 1 16 pos448 P448 summed448 summed448 (fun x => x ^ 2) (sqr448_1w st).
Proof. intro st. refine (computes1_ext _ _ _ _ _ _ _ _ _ sq_pow _). exact (one_1 16 pos448 P448 wt448 value448_ok mid448 mid448 summed448 summed448 mid448_below mid448_below ltac:(discriminate) (fun x => x * x) (sqr448_1w st) (sqr448_1w_ok st)). Qed.
Lemma spec_448_C27_add_1w : forall st, computes2 1 16 pos448 P448 reduced448 reduced448 summed448 Z.add (add448_1w st).
Proof. intro st. exact (two_1 16 pos448 P448 wt448 value448_ok red448 red448 mid448 reduced448 reduced448 summed448 red448_below red448_below mid448_below ltac:(discriminate) Z.add (add448_1w st) (add448_1w_ok st)). Qed.
Lemma spec_448_C27_sub_1w : forall st, computes2 1 16 pos448 P448 reduced448 reduced448 differed448 Z.sub (sub448_1w st).
Proof. intro st. exact (two_1 16 pos448 P448 wt448 value448_ok red448 red448 wide448 reduced448 reduced448 differed448 red448_below red448_below wide448_below ltac:(discriminate) Z.sub (sub448_1w st) (sub448_1w_ok st)). Qed.
Lemma spec_448_C27_neg_1w : forall st, computes1 1 16 pos448 P448 reduced448 differed448 Z.opp (neg448_1w st).
Proof. intro st. exact (one_1 16 pos448 P448 wt448 value448_ok red448 wide448 reduced448 differed448 red448_below wide448_below ltac:(discriminate) Z.opp (neg448_1w st) (neg448_1w_ok st)). Qed.
Lemma spec_448_C27_addsub_1_1w : forall st, computes2 1 16 pos448 P448 reduced448 reduced448 summed448 Z.add (fun a b => fst (addsub448_1w st a b)).
Proof. intro st. exact (two_1 16 pos448 P448 wt448 value448_ok red448 red448 mid448 reduced448 reduced448 summed448 red448_below red448_below mid448_below ltac:(discriminate) Z.add (fun a b => fst (addsub448_1w st a b)) (addsub448_1w_ok1 st)). Qed.
Lemma spec_448_C27_addsub_2_1w : forall st, computes2 1 16 pos448 P448 reduced448 reduced448 differed448 Z.sub (fun a b => snd (addsub448_1w st a b)).
Proof. intro st. exact (two_1 16 pos448 P448 wt448 value448_ok red448 red448 wide448 reduced448 reduced448 differed448 red448_below red448_below wide448_below ltac:(discriminate) Z.sub (fun a b => snd (addsub448_1w st a b)) (addsub448_1w_ok2 st)). Qed.
Lemma spec_448_C27_compress_1w : forall st, computes1 1 16 pos448 P448 double448 reduced448 (fun x => x) (compress448_1w st).
Proof. intro st. exact (one_1 16 pos448 P448 wt448 value448_ok big448 red448 double448 reduced448 big448_below red448_below ltac:(discriminate) (fun x => x) (compress448_1w st) (compress448_1w_ok st)). Qed.
Lemma spec_448_C27_compressfast_1w : forall st, computes1 1 16 pos448 P448 differed448 reduced448 (fun x => x) (compressfast448_1w st).
Proof. intro st. exact (one_1 16 pos448 P448 wt448 value448_ok wide448 red448 differed448 reduced448 wide448_below red448_below ltac:(discriminate) (fun x => x) (compressfast448_1w st) (compressfast448_1w_red st)). Qed.
Lemma spec_448_C26_mul_2w : forall st, computes2 2 16 pos448 P448 summed448 summed448 reduced448 Z.mul (mul448_2w st).
Proof. intro st. exact (two_2 16 pos448 P448 wt448 value448_ok mid448 mid448 red448 summed448 summed448 reduced448 mid448_below mid448_below red448_below ltac:(discriminate) Z.mul (mul448_2w st) (fun a b => call_length _ _ _ _ _) (mul448_2w_ok st)). Qed.
Lemma spec_448_C26_mul_2w_wr : forall st, computes2 2 16 pos448 P448 differed448 reduced448 reduced448 Z.mul (mul448_2w st).
Proof. intro st. exact (two_2 16 pos448 P448 wt448 value448_ok wide448 red448 red448 differed448 reduced448 reduced448 wide448_below red448_below red448_below ltac:(discriminate) Z.mul (mul448_2w st) (fun a b => call_length _ _ _ _ _) (mul448_2w_wr st)). Qed.
Lemma spec_448_C26_mul_2w_rw : forall st, computes2 2 16 pos448 P448 reduced448 differed448 reduced448 Z.mul (mul448_2w st).
Proof. intro st. exact (two_2 16 pos448 P448 wt448 value448_ok red448 wide448 red448 reduced448 differed448 reduced448 red448_below wide448_below red448_below ltac:(discriminate) Z.mul (mul448_2w st) (fun a b => call_length _ _ _ _ _) (mul448_2w_rw st)). Qed.
Lemma spec_448_C26_sqr_2w : forall st, computes1 2 16 pos448 P448 summed448 reduced448 (fun x => x ^ 2) (sqr448_2w st).
Proof. intro st. refine (computes1_ext _ _ _ _ _ _ _ _ _ sq_pow _). exact (one_2 16 pos448 P448 wt448 value448_ok mid448 red448 summed448 reduced448 mid448_below red448_below ltac:(discriminate) (fun x => x * x) (sqr448_2w st) (fun a => call_length _ _ _ _ _) (sqr448_2w_ok st)). Qed.
Lemma spec_448_C27_add_2w : forall st, computes2 2 16 pos448 P448 reduced448 reduced448 summed448 Z.add (add448_2w st).
Proof. intro st. exact (two_2 16 pos448 P448 wt448 value448_ok red448 red448 mid448 reduced448 reduced448 summed448 red448_below red448_below mid448_below ltac:(discriminate) Z.add (add448_2w st) (fun a b => call_length _ _ _ _ _) (add448_2w_ok st)). Qed.
Lemma spec_448_C27_sub_2w : forall st, computes2 2 16 pos448 P448 reduced448 reduced448 differed448 Z.sub (sub448_2w st).
Proof. intro st. exact (two_2 16 pos448 P448 wt448 value448_ok red448 red448 wide448 reduced448 reduced448 differed448 red448_below red448_below wide448_below ltac:(discriminate) Z.sub (sub448_2w st) (fun a b => call_length _ _ _ _ _) (sub448_2w_ok st)). Qed.
Lemma spec_448_C27_addsub_1_2w : forall st, computes2 2 16 pos448 P448 reduced448 reduced448 summed448 Z.add (fun a b => fst (addsub448_2w st a b)).
Proof. intro st. exact (two_2 16 pos448 P448 wt448 value448_ok red448 red448 mid448 reduced448 reduced448 summed448 red448_below red448_below mid448_below ltac:(discriminate) Z.add (fun a b => fst (addsub448_2w st a b)) (fun a b => call_length _ _ _ _ _) (addsub448_2w_ok1 st)). Qed.
Lemma spec_448_C27_addsub_2_2w : forall st, computes2 2 16 pos448 P448 reduced448 reduced448 differed448 Z.sub (fun a b => snd (addsub448_2w st a b)).
Proof. intro st. exact (two_2 16 pos448 P448 wt448 value448_ok red448 red448 wide448 reduced448 reduced448 differed448 red448_below red448_below wide448_below ltac:(discriminate) Z.sub (fun a b => snd (addsub448_2w st a b)) (fun a b => call_length _ _ _ _ _) (addsub448_2w_ok2 st)). Qed.
Lemma spec_448_C27_compress_2w : forall st, computes1 2 16 pos448 P448 double448 reduced448 (fun x => x) (compress448_2w st).
Proof. intro st. exact (one_2 16 pos448 P448 wt448 value448_ok big448 red448 double448 reduced448 big448_below red448_below ltac:(discriminate) (fun x => x) (compress448_2w st) (fun a => call_length _ _ _ _ _) (compress448_2w_ok st)). Qed.
Lemma spec_448_C27_compressfast_2w : forall st, computes1 2 16 pos448 P448 differed448 reduced448 (fun x => x) (compressfast448_2w st).
Proof. intro st. exact (one_2 16 pos448 P448 wt448 value448_ok wide448 red448 differed448 reduced448 wide448_below red448_below ltac:(discriminate) (fun x => x) (compressfast448_2w st) (fun a => call_length _ _ _ _ _) (compressfast448_2w_red st)). Qed.
Lemma spec_448_C27_compress2_1_2w : forall st, computes2 2 16 pos448 P448 double448 double448 reduced448 (fun x _ => x) (fun a b => fst (compress2448_2w st a b)).
Proof. intro st. exact (two_2 16 pos448 P448 wt448 value448_ok big448 big448 red448 double448 double448 reduced448 big448_below big448_below red448_below ltac:(discriminate) (fun x _ => x) (fun a b => fst (compress2448_2w st a b)) (fun a b => call_length _ _ _ _ _) (compress2448_2w_ok1 st)). Qed.
Lemma spec_448_C27_compress2_2_2w : forall st, computes2 2 16 pos448 P448 double448 double448 reduced448 (fun _ y => y) (fun a b => snd (compress2448_2w st a b)).
Proof. intro st. exact (two_2 16 pos448 P448 wt448 value448_ok big448 big448 red448 double448 double448 reduced448 big448_below big448_below red448_below ltac:(discriminate) (fun _ y => y) (fun a b => snd (compress2448_2w st a b)) (fun a b => call_length _ _ _ _ _) (compress2448_2w_ok2 st)). Qed.
Lemma spec_448_C26_mul_4w : forall st, computes2 4 16 pos448 P448 summed448 summed448 reduced448 Z.mul (mul448_4w st).
Proof. intro st. exact (two_4 16 pos448 P448 wt448 value448_ok mid448 mid448 red448 summed448 summed448 reduced448 mid448_below mid448_below red448_below ltac:(discriminate) Z.mul (mul448_4w st) (fun a b => call_length _ _ _ _ _) (mul448_4w_ok st)). Qed.
Lemma spec_448_C26_mul_4w_wr : forall st, computes2 4 16 pos448 P448 differed448 reduced448 reduced448 Z.mul (mul448_4w st).
Proof. intro st. exact (two_4 16 pos448 P448 wt448 value448_ok wide448 red448 red448 differed448 reduced448 reduced448 wide448_below red448_below red448_below ltac:(discriminate) Z.mul (mul448_4w st) (fun a b => call_length _ _ _ _ _) (mul448_4w_wr st)). Qed.
Lemma spec_448_C26_mul_4w_rw : forall st, computes2 4 16 pos448 P448 reduced448 differed448 reduced448 Z.mul (mul448_4w st).
Proof. intro st. exact (two_4 16 pos448 P448 wt448 value448_ok red448 wide448 red448 reduced448 differed448 reduced448 red448_below wide448_below red448_below ltac:(discriminate) Z.mul (mul448_4w st) (fun a b => call_length _ _ _ _ _) (mul448_4w_rw st)). Qed.
Lemma spec_448_C26_sqr_4w : forall st, computes1 4 16 pos448 P448 summed448 reduced448 (fun x => x ^ 2) (sqr448_4w st).
Proof. intro st. refine (computes1_ext _ _ _ _ _ _ _ _ _ sq_pow _). exact (one_4 16 pos448 P448 wt448 value448_ok mid448 red448 summed448 reduced448 mid448_below red448_below ltac:(discriminate) (fun x => x * x) (sqr448_4w st) (fun a => call_length _ _ _ _ _) (sqr448_4w_ok st)). Qed.
Lemma spec_448_C27_add_4w : forall st, computes2 4 16 pos448 P448 reduced448 reduced448 summed448 Z.add (add448_4w st).
Proof. intro st. exact (two_4 16 pos448 P448 wt448 value448_ok red448 red448 mid448 reduced448 reduced448 summed448 red448_below red448_below mid448_below ltac:(discriminate) Z.add (add448_4w st) (fun a b => call_length _ _ _ _ _) (add448_4w_ok st)). Qed.
Lemma spec_448_C27_sub_4w : forall st, computes2 4 16 pos448 P448 reduced448 reduced448 differed448 Z.sub (sub448_4w st).
Proof. intro st. exact (two_4 16 pos448 P448 wt448 value448_ok red448 red448 wide448 reduced448 reduced448 differed448 red448_below red448_below wide448_below ltac:(discriminate) Z.sub (sub448_4w st) (fun a b => call_length _ _ _ _ _) (sub448_4w_ok st)). Qed.
Lemma spec_448_C27_addsub_1_4w : forall st, computes2 4 16 pos448 P448 reduced448 reduced448 summed448 Z.add (fun a b => fst (addsub448_4w st a b)).
Proof. intro st. exact (two_4 16 pos448 P448 wt448 value448_ok red448 red448 mid448 reduced448 reduced448 summed448 red448_below red448_below mid448_below ltac:(discriminate) Z.add (fun a b => fst (addsub448_4w st a b)) (fun a b => call_length _ _ _ _ _) (addsub448_4w_ok1 st)). Qed.
Lemma spec_448_C27_addsub_2_4w : forall st, computes2 4 16 pos448 P448 reduced448 reduced448 differed448 Z.sub (fun a b => snd (addsub448_4w st a b)).
Proof. intro st. exact (two_4 16 pos448 P448 wt448 value448_ok red448 red448 wide448 reduced448 reduced448 differed448 red448_below red448_below wide448_below ltac:(discriminate) Z.sub (fun a b => snd (addsub448_4w st a b)) (fun a b => call_length _ _ _ _ _) (addsub448_4w_ok2 st)). Qed.
Lemma spec_448_C27_compress_4w : forall st, computes1 4 16 pos448 P448 double448 reduced448 (fun x => x) (compress448_4w st).
Proof. intro st. exact (one_4 16 pos448 P448 wt448 value448_ok big448 red448 double448 reduced448 big448_below red448_below ltac:(discriminate) (fun x => x) (compress448_4w st) (fun a => call_length _ _ _ _ _) (compress448_4w_ok st)). Qed.
Lemma spec_448_C27_compressfast_4w : forall st, computes1 4 16 pos448 P448 differed448 reduced448 (fun x => x) (compressfast448_4w st).
Proof. intro st. exact (one_4 16 pos448 P448 wt448 value448_ok wide448 red448 differed448 reduced448 wide448_below red448_below ltac:(discriminate) (fun x => x) (compressfast448_4w st) (fun a => call_length _ _ _ _ _) (compressfast448_4w_red st)). Qed.
Lemma spec_448_C27_compress2_1_4w : forall st, computes2 4 16 pos448 P448 double448 double448 reduced448 (fun x _ => x) (fun a b => fst (compress2448_4w st a b)).
Proof. intro st. exact (two_4 16 pos448 P448 wt448 value448_ok big448 big448 red448 double448 double448 reduced448 big448_below big448_below red448_below ltac:(discriminate) (fun x _ => x) (fun a b => fst (compress2448_4w st a b)) (fun a b => call_length _ _ _ _ _) (compress2448_4w_ok1 st)). Qed.
Lemma spec_448_C27_compress2_2_4w : forall st, computes2 4 16 pos448 P448 double448 double448 reduced448 (fun _ y => y) (fun a b => snd (compress2448_4w st a b)).
Proof. intro st. exact (two_4 16 pos448 P448 wt448 value448_ok big448 big448 red448 double448 double448 reduced448 big448_below big448_below red448_below ltac:(discriminate) (fun _ y => y) (fun a b => snd (compress2448_4w st a b)) (fun a b => call_length _ _ _ _ _) (compress2448_4w_ok2 st)). Qed.
Lemma spec_448_C27_new_compressfast_1w : forall st, computes1 1 16 pos448 P448 differed448 reduced448 (fun x => x) (new_compressfast448_1w st).
Proof. intro st. exact (one_1 16 pos448 P448 wt448 value448_ok wide448 red448 differed448 reduced448 wide448_below red448_below ltac:(discriminate) (fun x => x) (new_compressfast448_1w st) (new_compressfast448_1w_red st)). Qed.
Lemma spec_448_C27_new_compressfast2_1_4w : forall st, computes2 4 16 pos448 P448 differed448 differed448 reduced448 (fun x _ => x) (fun a b => fst (new_compressfast2448_4w st a b)).
Proof. intro st. exact (two_4 16 pos448 P448 wt448 value448_ok wide448 wide448 red448 differed448 differed448 reduced448 wide448_below wide448_below red448_below ltac:(discriminate) (fun x _ => x) (fun a b => fst (new_compressfast2448_4w st a b)) (fun a b => call_length _ _ _ _ _) (new_compressfast2448_4w_red1 st)). Qed.
Lemma spec_448_C27_new_compressfast2_2_4w : forall st, computes2 4 16 pos448 P448 differed448 differed448 reduced448 (fun _ y => y) (fun a b => snd (new_compressfast2448_4w st a b)).
Proof. intro st. exact (two_4 16 pos448 P448 wt448 value448_ok wide448 wide448 red448 differed448 differed448 reduced448 wide448_below wide448_below red448_below ltac:(discriminate) (fun _ y => y) (fun a b => snd (new_compressfast2448_4w st a b)) (fun a b => call_length _ _ _ _ _) (new_compressfast2448_4w_red2 st)). Qed.
Lemma spec_C18_add_2w : forall st st', lanewise2 2 10 (add_2w st) (add_2w st').
Proof. intros st st'. exact (lw2_2 10 v255_2w_add q2 q3 q1 st st' chk2_add). Qed.
Lemma spec_C18_sub_2w : forall st st', lanewise2 2 10 (sub_2w st) (sub_2w st').
Proof. intros st st'. exact (lw2_2 10 v255_2w_sub q2 q3 q1 st st' chk2_sub). Qed.
Lemma spec_C18_neg_2w : forall st st', lanewise1 2 10 (neg_2w st) (neg_2w st').
Proof. intros st st'. exact (lw1_2 10 v255_2w_neg q1 st st' chk2_neg). Qed.
Lemma spec_C18_addsub_1_2w : forall st st', lanewise2 2 10 (fun a b => fst (addsub_2w st a b)) (fun a b => fst (addsub_2w st' a b)).
Proof. intros st st'. exact (lw2_2 10 v255_2w_addsub q1 q2 q1 st st' chk2_addsub1). Qed.
Lemma spec_C18_addsub_2_2w : forall st st', lanewise2 2 10 (fun a b => snd (addsub_2w st a b)) (fun a b => snd (addsub_2w st' a b)).
Proof. intros st st'. exact (lw2_2 10 v255_2w_addsub q1 q2 q2 st st' chk2_addsub2). Qed.
Lemma spec_C18_intmul_2w : forall st st', lanewise2 2 10 (intmul_2w st) (intmul_2w st').
Proof. intros st st'. exact (lw2_2 10 v255_2w_intmul q2 q3 q1 st st' chk2_intmul). Qed.
Lemma spec_C18_intsqr_2w : forall st st', lanewise1 2 10 (intsqr_2w st) (intsqr_2w st').
Proof. intros st st'. exact (lw1_2 10 v255_2w_intsqr q1 st st' chk2_intsqr). Qed.
Lemma spec_C18_compress_2w : forall st st', lanewise1 2 10 (compress_2w st) (compress_2w st').
Proof. intros st st'. exact (lw1_2 10 v255_2w_compress q1 st st' chk2_compress). Qed.
Lemma spec_C18_compressfast_2w : forall st st', lanewise1 2 10 (compressfast_2w st) (compressfast_2w st').
Proof. intros st st'. exact (lw1_2 10 v255_2w_compressfast q1 st st' chk2_compressfast). Qed.
Lemma spec_C18_compress2_1_2w : forall st st', lanewise2 2 10 (fun a b => fst (compress2_2w st a b)) (fun a b => fst (compress2_2w st' a b)).
Proof. intros st st'. exact (lw2_2 10 v255_2w_compress2 q1 q2 q1 st st' chk2_compress21). Qed.
Lemma spec_C18_compress2_2_2w : forall st st', lanewise2 2 10 (fun a b => snd (compress2_2w st a b)) (fun a b => snd (compress2_2w st' a b)).
Proof. intros st st'. exact (lw2_2 10 v255_2w_compress2 q1 q2 q2 st st' chk2_compress22). Qed.
Lemma spec_C18_mul_2w : forall st st', lanewise2 2 10 (mul_2w st) (mul_2w st').
Proof.
  intros st st'. exact (lw_comp2 2 10 (intmul_2w st) (intmul_2w st') (compress_2w st) (compress_2w st') (spec_C18_intmul_2w st st') (spec_C18_compress_2w st st')
    (fun a b => call_length _ _ _ _ _) (fun a b => call_length _ _ _ _ _)).
Qed.
Lemma spec_C18_sqr_2w : forall st st', lanewise1 2 10 (sqr_2w st) (sqr_2w st').
Proof.
  intros st st'. exact (lw_comp1 2 10 (intsqr_2w st) (intsqr_2w st') (compress_2w st) (compress_2w st') (spec_C18_intsqr_2w st st') (spec_C18_compress_2w st st')
    (fun a => call_length _ _ _ _ _) (fun a => call_length _ _ _ _ _)).
Qed.
Lemma spec_C18_add_4w : forall st st', lanewise2 4 10 (add_4w st) (add_4w st').
Proof. intros st st'. exact (lw2_4 10 v255_4w_add q2 q3 q1 st st' chk4_add). Qed.
Lemma spec_C18_sub_4w : forall st st', lanewise2 4 10 (sub_4w st) (sub_4w st').
Proof. intros st st'. exact (lw2_4 10 v255_4w_sub q2 q3 q1 st st' chk4_sub). Qed.
Lemma spec_C18_neg_4w : forall st st', lanewise1 4 10 (neg_4w st) (neg_4w st').
Proof. intros st st'. exact (lw1_4 10 v255_4w_neg q1 st st' chk4_neg). Qed.
Lemma spec_C18_addsub_1_4w : forall st st', lanewise2 4 10 (fun a b => fst (addsub_4w st a b)) (fun a b => fst (addsub_4w st' a b)).
Proof. intros st st'. exact (lw2_4 10 v255_4w_addsub q3 q4 q1 st st' chk4_addsub1). Qed.
Lemma spec_C18_addsub_2_4w : forall st st', lanewise2 4 10 (fun a b => snd (addsub_4w st a b)) (fun a b => snd (addsub_4w st' a b)).
Proof. intros st st'. exact (lw2_4 10 v255_4w_addsub q3 q4 q2 st st' chk4_addsub2). Qed.
Lemma spec_C18_intmul_4w : forall st st', lanewise2 4 10 (intmul_4w st) (intmul_4w st').
Proof. intros st st'. exact (lw2_4 10 v255_4w_intmul_sb q2 q3 q1 st st' chk4_intmul). Qed.
Lemma spec_C18_intsqr_4w : forall st st', lanewise1 4 10 (intsqr_4w st) (intsqr_4w st').
Proof. intros st st'. exact (lw1_4 10 v255_4w_intsqr q1 st st' chk4_intsqr). Qed.
Lemma spec_C18_compress_4w : forall st st', lanewise1 4 10 (compress_4w st) (compress_4w st').
Proof. intros st st'. exact (lw1_4 10 v255_4w_compress q1 st st' chk4_compress). Qed.
Lemma spec_C18_compressfast_4w : forall st st', lanewise1 4 10 (compressfast_4w st) (compressfast_4w st').
Proof. intros st st'. exact (lw1_4 10 v255_4w_compressfast q1 st st' chk4_compressfast). Qed.
Lemma spec_C18_compress2_1_4w : forall st st', lanewise2 4 10 (fun a b => fst (compress2_4w st a b)) (fun a b => fst (compress2_4w st' a b)).
Proof. intros st st'. exact (lw2_4 10 v255_4w_compress2 q1 q2 q1 st st' chk4_compress21). Qed.
Lemma spec_C18_compress2_2_4w : forall st st', lanewise2 4 10 (fun a b => snd (compress2_4w st a b)) (fun a b => snd (compress2_4w st' a b)).
Proof. intros st st'. exact (lw2_4 10 v255_4w_compress2 q1 q2 q2 st st' chk4_compress22). Qed.
Lemma spec_C18_mul_4w : forall st st', lanewise2 4 10 (mul_4w st) (mul_4w st').
Proof.
  intros st st'. exact (lw_comp2 4 10 (intmul_4w st) (intmul_4w st') (compress_4w st) (compress_4w st') (spec_C18_intmul_4w st st') (spec_C18_compress_4w st st')
    (fun a b => call_length _ _ _ _ _) (fun a b => call_length _ _ _ _ _)).
Qed.
Lemma spec_C18_sqr_4w : forall st st', lanewise1 4 10 (sqr_4w st) (sqr_4w st').
Proof.
  intros st st'. exact (lw_comp1 4 10 (intsqr_4w st) (intsqr_4w st') (compress_4w st) (compress_4w st') (spec_C18_intsqr_4w st st') (spec_C18_compress_4w st st')
    (fun a => call_length _ _ _ _ _) (fun a => call_length _ _ _ _ _)).
Qed.
Lemma spec_C18_add448_2w : forall st st', lanewise2 2 16 (add448_2w st) (add448_2w st').
Proof. intros st st'. exact (lw2_2 16 v448_2w_add q2 q3 q1 st st' chkq2_add). Qed.
Lemma spec_C18_sub448_2w : forall st st', lanewise2 2 16 (sub448_2w st) (sub448_2w st').
Proof. intros st st'. exact (lw2_2 16 v448_2w_sub q2 q3 q1 st st' chkq2_sub). Qed.
Lemma spec_C18_addsub448_1_2w : forall st st', lanewise2 2 16 (fun a b => fst (addsub448_2w st a b)) (fun a b => fst (addsub448_2w st' a b)).
Proof. intros st st'. exact (lw2_2 16 v448_2w_addsub q1 q2 q1 st st' chkq2_addsub1). Qed.
Lemma spec_C18_addsub448_2_2w : forall st st', lanewise2 2 16 (fun a b => snd (addsub448_2w st a b)) (fun a b => snd (addsub448_2w st' a b)).
Proof. intros st st'. exact (lw2_2 16 v448_2w_addsub q1 q2 q2 st st' chkq2_addsub2). Qed.
Lemma spec_C18_intmul448_2w : forall st st', lanewise2 2 16 (intmul448_2w st) (intmul448_2w st').
Proof. intros st st'. exact (lw2_2 16 v448_2w_intmul_karat q2 q3 q1 st st' chkq2_intmul). Qed.
Lemma spec_C18_intsqr448_2w : forall st st', lanewise1 2 16 (intsqr448_2w st) (intsqr448_2w st').
Proof. intros st st'. exact (lw1_2 16 v448_2w_intsqr_karat q1 st st' chkq2_intsqr). Qed.
Lemma spec_C18_compress448_2w : forall st st', lanewise1 2 16 (compress448_2w st) (compress448_2w st').
Proof. intros st st'. exact (lw1_2 16 v448_2w_compress q1 st st' chkq2_compress). Qed.
Lemma spec_C18_compressfast448_2w : forall st st', lanewise1 2 16 (compressfast448_2w st) (compressfast448_2w st').
Proof. intros st st'. exact (lw1_2 16 v448_2w_compressfast q1 st st' chkq2_compressfast). Qed.
Lemma spec_C18_compress2448_1_2w : forall st st', lanewise2 2 16 (fun a b => fst (compress2448_2w st a b)) (fun a b => fst (compress2448_2w st' a b)).
Proof. intros st st'. exact (lw2_2 16 v448_2w_compress2 q1 q2 q1 st st' chkq2_compress21). Qed.
Lemma spec_C18_compress2448_2_2w : forall st st', lanewise2 2 16 (fun a b => snd (compress2448_2w st a b)) (fun a b => snd (compress2448_2w st' a b)).
Proof. intros st st'. exact (lw2_2 16 v448_2w_compress2 q1 q2 q2 st st' chkq2_compress22). Qed.
Lemma spec_C18_mul448_2w : forall st st', lanewise2 2 16 (mul448_2w st) (mul448_2w st').
Proof.
  intros st st'. exact (lw_comp2 2 16 (intmul448_2w st) (intmul448_2w st') (compress448_2w st) (compress448_2w st') (spec_C18_intmul448_2w st st') (spec_C18_compress448_2w st st')
    (fun a b => call_length _ _ _ _ _) (fun a b => call_length _ _ _ _ _)).
Qed.
Lemma spec_C18_sqr448_2w : forall st st', lanewise1 2 16 (sqr448_2w st) (sqr448_2w st').
Proof.
  intros st st'. exact (lw_comp1 2 16 (intsqr448_2w st) (intsqr448_2w st') (compress448_2w st) (compress448_2w st') (spec_C18_intsqr448_2w st st') (spec_C18_compress448_2w st st')
    (fun a => call_length _ _ _ _ _) (fun a => call_length _ _ _ _ _)).
Qed.
Lemma spec_C18_add448_4w : forall st st', lanewise2 4 16 (add448_4w st) (add448_4w st').
Proof. intros st st'. exact (lw2_4 16 v448_4w_add q2 q3 q1 st st' chkq4_add). Qed.
Lemma spec_C18_sub448_4w : forall st st', lanewise2 4 16 (sub448_4w st) (sub448_4w st').
Proof. intros st st'. exact (lw2_4 16 v448_4w_sub q2 q3 q1 st st' chkq4_sub). Qed.
Lemma spec_C18_addsub448_1_4w : forall st st', lanewise2 4 16 (fun a b => fst (addsub448_4w st a b)) (fun a b => fst (addsub448_4w st' a b)).
Proof. intros st st'. exact (lw2_4 16 v448_4w_addsub q3 q4 q1 st st' chkq4_addsub1). Qed.
Lemma spec_C18_addsub448_2_4w : forall st st', lanewise2 4 16 (fun a b => snd (addsub448_4w st a b)) (fun a b => snd (addsub448_4w st' a b)).
Proof. intros st st'. exact (lw2_4 16 v448_4w_addsub q3 q4 q2 st st' chkq4_addsub2). Qed.
Lemma spec_C18_intmul448_4w : forall st st', lanewise2 4 16 (intmul448_4w st) (intmul448_4w st').
Proof. intros st st'. exact (lw2_4 16 v448_4w_intmul_karat q2 q3 q1 st st' chkq4_intmul). Qed.
Lemma spec_C18_intsqr448_4w : forall st st', lanewise1 4 16 (intsqr448_4w st) (intsqr448_4w st').
Proof. intros st st'. exact (lw1_4 16 v448_4w_intsqr_karat q1 st st' chkq4_intsqr). Qed.
Lemma spec_C18_compress448_4w : forall st st', lanewise1 4 16 (compress448_4w st) (compress448_4w st').
Proof. intros st st'. exact (lw1_4 16 v448_4w_compress q1 st st' chkq4_compress). Qed.
Lemma spec_C18_compressfast448_4w : forall st st', lanewise1 4 16 (compressfast448_4w st) (compressfast448_4w st').
Proof. intros st st'. exact (lw1_4 16 v448_4w_compressfast q1 st st' chkq4_compressfast). Qed.
Lemma spec_C18_compress2448_1_4w : forall st st', lanewise2 4 16 (fun a b => fst (compress2448_4w st a b)) (fun a b => fst (compress2448_4w st' a b)).
Proof. intros st st'. exact (lw2_4 16 v448_4w_compress2 q1 q2 q1 st st' chkq4_compress21). Qed.
Lemma spec_C18_compress2448_2_4w : forall st st', lanewise2 4 16 (fun a b => snd (compress2448_4w st a b)) (fun a b => snd (compress2448_4w st' a b)).
Proof. intros st st'. exact (lw2_4 16 v448_4w_compress2 q1 q2 q2 st st' chkq4_compress22). Qed.
Lemma spec_C18_mul448_4w : forall st st', lanewise2 4 16 (mul448_4w st) (mul448_4w st').
Proof.
  intros st st'. exact (lw_comp2 4 16 (intmul448_4w st) (intmul448_4w st') (compress448_4w st) (compress448_4w st') (spec_C18_intmul448_4w st st') (spec_C18_compress448_4w st st')
    (fun a b => call_length _ _ _ _ _) (fun a b => call_length _ _ _ _ _)).
Qed.
Lemma spec_C18_sqr448_4w : forall st st', lanewise1 4 16 (sqr448_4w st) (sqr448_4w st').
Proof.
  intros st st'. exact (lw_comp1 4 16 (intsqr448_4w st) (intsqr448_4w st') (compress448_4w st) (compress448_4w st') (spec_C18_intsqr448_4w st st') (spec_C18_compress448_4w st st')
    (fun a => call_length _ _ _ _ _) (fun a => call_length _ _ _ _ _)).
Qed.
