(** The field elements of the empty message: a digest of SHA-512 and its residues. *)
From Coq Require Import ZArith List Lia.
From Verif Require Import Bytes SpecScalar SpecEd SpecSha2 Sha512 Sha512Proofs HashProps.
Import ListNotations.
Open Scope Z_scope.

Definition c_zero : ctx := Ctx (repeat 0 128) [] 0.
Lemma c_zero_clean : clean c_zero. Proof. split; [reflexivity|apply zeros_byte]. Qed.
Definition digest_0 : Z := 12468429449643689277870740385789119201811177953598515029523943056493048910934388082891563107115158241579689702323309966795229412883685391188495388803671224.
Lemma digest_eq : le_val (SHA512_fips [0]) = digest_0.
Proof.
  pose proof (proj1 (sha512_fips c_zero [[0]] c_zero_clean ltac:(repeat constructor; unfold byte; lia) ltac:(cbn; lia))) as E.
  change (concat [[0]]) with [0] in E. rewrite <- E. vm_compute. reflexivity.
Qed.
