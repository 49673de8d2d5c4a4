(** Keccak and SHAKE as computed by /repo/third_party/sha3.c.  The 200 bytes of a hashState are a list of
    bytes, the uint64_t array of the one-shot functions a list of 25 words; the casts between them are
    the little-endian conversions of Bytes.v.  The rounds are printed by a script from the C text, with one
    let per assignment.  Final, Hash and Hash2 are not modelled: the library does not call them. *)
From Coq Require Import ZArith List Bool.
From Verif Require Import Bytes.
Import ListNotations.
Open Scope Z_scope.

(** ROL64, :10; a << offset drops the high bits *)
Definition ROL64 (a offset : Z) : Z := Z.lxor (Z.shiftl a offset mod 2 ^ 64) (Z.shiftr a (64 - offset)).
(** ~ on uint64_t *)
Definition not64 (a : Z) : Z := Z.lxor a 0xFFFFFFFFFFFFFFFF.
(** KeccakF21600RoundConstants, :12-38 *)
Definition KeccakF21600RoundConstants : list Z := [
  0x0000000000000001; 0x0000000000008082; 0x800000000000808a; 0x8000000080008000;
  0x000000000000808b; 0x0000000080000001; 0x8000000080008081; 0x8000000000008009;
  0x000000000000008a; 0x0000000000000088; 0x0000000080008009; 0x000000008000000a;
  0x000000008000808b; 0x800000000000008b; 0x8000000000008089; 0x8000000000008003;
  0x8000000000008002; 0x8000000000000080; 0x000000000000800a; 0x800000008000000a;
  0x8000000080008081; 0x8000000000008080; 0x0000000080000001; 0x8000000080008008].
(** Round 0 of the four unrolled rounds, /repo/third_party/sha3.c:75-140; rc is KeccakF21600RoundConstants[i + 0] *)
Definition keccak_round0 (rc : Z) (s : list Z) : list Z :=
  match s with
  | [Aba; Abe; Abi; Abo; Abu; Aga; Age; Agi; Ago; Agu; Aka; Ake; Aki; Ako; Aku; Ama; Ame; Ami; Amo; Amu; Asa; Ase; Asi; Aso; Asu] =>
    let Ca := Z.lxor (Z.lxor (Z.lxor (Z.lxor Aba Aga) Aka) Ama) Asa in
    let Ce := Z.lxor (Z.lxor (Z.lxor (Z.lxor Abe Age) Ake) Ame) Ase in
    let Ci := Z.lxor (Z.lxor (Z.lxor (Z.lxor Abi Agi) Aki) Ami) Asi in
    let Co := Z.lxor (Z.lxor (Z.lxor (Z.lxor Abo Ago) Ako) Amo) Aso in
    let Cu := Z.lxor (Z.lxor (Z.lxor (Z.lxor Abu Agu) Aku) Amu) Asu in
    let Da := Z.lxor Cu (ROL64 Ce 1) in
    let De := Z.lxor Ca (ROL64 Ci 1) in
    let Di := Z.lxor Ce (ROL64 Co 1) in
    let Do := Z.lxor Ci (ROL64 Cu 1) in
    let Du := Z.lxor Co (ROL64 Ca 1) in
    let Ba := Z.lxor Aba Da in
    let Be := ROL64 (Z.lxor Age De) 44 in
    let Bi := ROL64 (Z.lxor Aki Di) 43 in
    let Bo := ROL64 (Z.lxor Amo Do) 21 in
    let Bu := ROL64 (Z.lxor Asu Du) 14 in
    let Aba := Z.lxor Ba (Z.land (not64 Be) Bi) in
    let Aba := Z.lxor Aba rc in
    let Age := Z.lxor Be (Z.land (not64 Bi) Bo) in
    let Aki := Z.lxor Bi (Z.land (not64 Bo) Bu) in
    let Amo := Z.lxor Bo (Z.land (not64 Bu) Ba) in
    let Asu := Z.lxor Bu (Z.land (not64 Ba) Be) in
    let Bi := ROL64 (Z.lxor Aka Da) 3 in
    let Bo := ROL64 (Z.lxor Ame De) 45 in
    let Bu := ROL64 (Z.lxor Asi Di) 61 in
    let Ba := ROL64 (Z.lxor Abo Do) 28 in
    let Be := ROL64 (Z.lxor Agu Du) 20 in
    let Aka := Z.lxor Ba (Z.land (not64 Be) Bi) in
    let Ame := Z.lxor Be (Z.land (not64 Bi) Bo) in
    let Asi := Z.lxor Bi (Z.land (not64 Bo) Bu) in
    let Abo := Z.lxor Bo (Z.land (not64 Bu) Ba) in
    let Agu := Z.lxor Bu (Z.land (not64 Ba) Be) in
    let Bu := ROL64 (Z.lxor Asa Da) 18 in
    let Ba := ROL64 (Z.lxor Abe De) 1 in
    let Be := ROL64 (Z.lxor Agi Di) 6 in
    let Bi := ROL64 (Z.lxor Ako Do) 25 in
    let Bo := ROL64 (Z.lxor Amu Du) 8 in
    let Asa := Z.lxor Ba (Z.land (not64 Be) Bi) in
    let Abe := Z.lxor Be (Z.land (not64 Bi) Bo) in
    let Agi := Z.lxor Bi (Z.land (not64 Bo) Bu) in
    let Ako := Z.lxor Bo (Z.land (not64 Bu) Ba) in
    let Amu := Z.lxor Bu (Z.land (not64 Ba) Be) in
    let Be := ROL64 (Z.lxor Aga Da) 36 in
    let Bi := ROL64 (Z.lxor Ake De) 10 in
    let Bo := ROL64 (Z.lxor Ami Di) 15 in
    let Bu := ROL64 (Z.lxor Aso Do) 56 in
    let Ba := ROL64 (Z.lxor Abu Du) 27 in
    let Aga := Z.lxor Ba (Z.land (not64 Be) Bi) in
    let Ake := Z.lxor Be (Z.land (not64 Bi) Bo) in
    let Ami := Z.lxor Bi (Z.land (not64 Bo) Bu) in
    let Aso := Z.lxor Bo (Z.land (not64 Bu) Ba) in
    let Abu := Z.lxor Bu (Z.land (not64 Ba) Be) in
    let Bo := ROL64 (Z.lxor Ama Da) 41 in
    let Bu := ROL64 (Z.lxor Ase De) 2 in
    let Ba := ROL64 (Z.lxor Abi Di) 62 in
    let Be := ROL64 (Z.lxor Ago Do) 55 in
    let Bi := ROL64 (Z.lxor Aku Du) 39 in
    let Ama := Z.lxor Ba (Z.land (not64 Be) Bi) in
    let Ase := Z.lxor Be (Z.land (not64 Bi) Bo) in
    let Abi := Z.lxor Bi (Z.land (not64 Bo) Bu) in
    let Ago := Z.lxor Bo (Z.land (not64 Bu) Ba) in
    let Aku := Z.lxor Bu (Z.land (not64 Ba) Be) in
    [Aba; Abe; Abi; Abo; Abu; Aga; Age; Agi; Ago; Agu; Aka; Ake; Aki; Ako; Aku; Ama; Ame; Ami; Amo; Amu; Asa; Ase; Asi; Aso; Asu]
  | _ => s
  end.
(** Round 1 of the four unrolled rounds, /repo/third_party/sha3.c:142-207; rc is KeccakF21600RoundConstants[i + 1] *)
Definition keccak_round1 (rc : Z) (s : list Z) : list Z :=
  match s with
  | [Aba; Abe; Abi; Abo; Abu; Aga; Age; Agi; Ago; Agu; Aka; Ake; Aki; Ako; Aku; Ama; Ame; Ami; Amo; Amu; Asa; Ase; Asi; Aso; Asu] =>
    let Ca := Z.lxor (Z.lxor (Z.lxor (Z.lxor Aba Aka) Asa) Aga) Ama in
    let Ce := Z.lxor (Z.lxor (Z.lxor (Z.lxor Age Ame) Abe) Ake) Ase in
    let Ci := Z.lxor (Z.lxor (Z.lxor (Z.lxor Aki Asi) Agi) Ami) Abi in
    let Co := Z.lxor (Z.lxor (Z.lxor (Z.lxor Amo Abo) Ako) Aso) Ago in
    let Cu := Z.lxor (Z.lxor (Z.lxor (Z.lxor Asu Agu) Amu) Abu) Aku in
    let Da := Z.lxor Cu (ROL64 Ce 1) in
    let De := Z.lxor Ca (ROL64 Ci 1) in
    let Di := Z.lxor Ce (ROL64 Co 1) in
    let Do := Z.lxor Ci (ROL64 Cu 1) in
    let Du := Z.lxor Co (ROL64 Ca 1) in
    let Ba := Z.lxor Aba Da in
    let Be := ROL64 (Z.lxor Ame De) 44 in
    let Bi := ROL64 (Z.lxor Agi Di) 43 in
    let Bo := ROL64 (Z.lxor Aso Do) 21 in
    let Bu := ROL64 (Z.lxor Aku Du) 14 in
    let Aba := Z.lxor Ba (Z.land (not64 Be) Bi) in
    let Aba := Z.lxor Aba rc in
    let Ame := Z.lxor Be (Z.land (not64 Bi) Bo) in
    let Agi := Z.lxor Bi (Z.land (not64 Bo) Bu) in
    let Aso := Z.lxor Bo (Z.land (not64 Bu) Ba) in
    let Aku := Z.lxor Bu (Z.land (not64 Ba) Be) in
    let Bi := ROL64 (Z.lxor Asa Da) 3 in
    let Bo := ROL64 (Z.lxor Ake De) 45 in
    let Bu := ROL64 (Z.lxor Abi Di) 61 in
    let Ba := ROL64 (Z.lxor Amo Do) 28 in
    let Be := ROL64 (Z.lxor Agu Du) 20 in
    let Asa := Z.lxor Ba (Z.land (not64 Be) Bi) in
    let Ake := Z.lxor Be (Z.land (not64 Bi) Bo) in
    let Abi := Z.lxor Bi (Z.land (not64 Bo) Bu) in
    let Amo := Z.lxor Bo (Z.land (not64 Bu) Ba) in
    let Agu := Z.lxor Bu (Z.land (not64 Ba) Be) in
    let Bu := ROL64 (Z.lxor Ama Da) 18 in
    let Ba := ROL64 (Z.lxor Age De) 1 in
    let Be := ROL64 (Z.lxor Asi Di) 6 in
    let Bi := ROL64 (Z.lxor Ako Do) 25 in
    let Bo := ROL64 (Z.lxor Abu Du) 8 in
    let Ama := Z.lxor Ba (Z.land (not64 Be) Bi) in
    let Age := Z.lxor Be (Z.land (not64 Bi) Bo) in
    let Asi := Z.lxor Bi (Z.land (not64 Bo) Bu) in
    let Ako := Z.lxor Bo (Z.land (not64 Bu) Ba) in
    let Abu := Z.lxor Bu (Z.land (not64 Ba) Be) in
    let Be := ROL64 (Z.lxor Aka Da) 36 in
    let Bi := ROL64 (Z.lxor Abe De) 10 in
    let Bo := ROL64 (Z.lxor Ami Di) 15 in
    let Bu := ROL64 (Z.lxor Ago Do) 56 in
    let Ba := ROL64 (Z.lxor Asu Du) 27 in
    let Aka := Z.lxor Ba (Z.land (not64 Be) Bi) in
    let Abe := Z.lxor Be (Z.land (not64 Bi) Bo) in
    let Ami := Z.lxor Bi (Z.land (not64 Bo) Bu) in
    let Ago := Z.lxor Bo (Z.land (not64 Bu) Ba) in
    let Asu := Z.lxor Bu (Z.land (not64 Ba) Be) in
    let Bo := ROL64 (Z.lxor Aga Da) 41 in
    let Bu := ROL64 (Z.lxor Ase De) 2 in
    let Ba := ROL64 (Z.lxor Aki Di) 62 in
    let Be := ROL64 (Z.lxor Abo Do) 55 in
    let Bi := ROL64 (Z.lxor Amu Du) 39 in
    let Aga := Z.lxor Ba (Z.land (not64 Be) Bi) in
    let Ase := Z.lxor Be (Z.land (not64 Bi) Bo) in
    let Aki := Z.lxor Bi (Z.land (not64 Bo) Bu) in
    let Abo := Z.lxor Bo (Z.land (not64 Bu) Ba) in
    let Amu := Z.lxor Bu (Z.land (not64 Ba) Be) in
    [Aba; Abe; Abi; Abo; Abu; Aga; Age; Agi; Ago; Agu; Aka; Ake; Aki; Ako; Aku; Ama; Ame; Ami; Amo; Amu; Asa; Ase; Asi; Aso; Asu]
  | _ => s
  end.
(** Round 2 of the four unrolled rounds, /repo/third_party/sha3.c:209-274; rc is KeccakF21600RoundConstants[i + 2] *)
Definition keccak_round2 (rc : Z) (s : list Z) : list Z :=
  match s with
  | [Aba; Abe; Abi; Abo; Abu; Aga; Age; Agi; Ago; Agu; Aka; Ake; Aki; Ako; Aku; Ama; Ame; Ami; Amo; Amu; Asa; Ase; Asi; Aso; Asu] =>
    let Ca := Z.lxor (Z.lxor (Z.lxor (Z.lxor Aba Asa) Ama) Aka) Aga in
    let Ce := Z.lxor (Z.lxor (Z.lxor (Z.lxor Ame Ake) Age) Abe) Ase in
    let Ci := Z.lxor (Z.lxor (Z.lxor (Z.lxor Agi Abi) Asi) Ami) Aki in
    let Co := Z.lxor (Z.lxor (Z.lxor (Z.lxor Aso Amo) Ako) Ago) Abo in
    let Cu := Z.lxor (Z.lxor (Z.lxor (Z.lxor Aku Agu) Abu) Asu) Amu in
    let Da := Z.lxor Cu (ROL64 Ce 1) in
    let De := Z.lxor Ca (ROL64 Ci 1) in
    let Di := Z.lxor Ce (ROL64 Co 1) in
    let Do := Z.lxor Ci (ROL64 Cu 1) in
    let Du := Z.lxor Co (ROL64 Ca 1) in
    let Ba := Z.lxor Aba Da in
    let Be := ROL64 (Z.lxor Ake De) 44 in
    let Bi := ROL64 (Z.lxor Asi Di) 43 in
    let Bo := ROL64 (Z.lxor Ago Do) 21 in
    let Bu := ROL64 (Z.lxor Amu Du) 14 in
    let Aba := Z.lxor Ba (Z.land (not64 Be) Bi) in
    let Aba := Z.lxor Aba rc in
    let Ake := Z.lxor Be (Z.land (not64 Bi) Bo) in
    let Asi := Z.lxor Bi (Z.land (not64 Bo) Bu) in
    let Ago := Z.lxor Bo (Z.land (not64 Bu) Ba) in
    let Amu := Z.lxor Bu (Z.land (not64 Ba) Be) in
    let Bi := ROL64 (Z.lxor Ama Da) 3 in
    let Bo := ROL64 (Z.lxor Abe De) 45 in
    let Bu := ROL64 (Z.lxor Aki Di) 61 in
    let Ba := ROL64 (Z.lxor Aso Do) 28 in
    let Be := ROL64 (Z.lxor Agu Du) 20 in
    let Ama := Z.lxor Ba (Z.land (not64 Be) Bi) in
    let Abe := Z.lxor Be (Z.land (not64 Bi) Bo) in
    let Aki := Z.lxor Bi (Z.land (not64 Bo) Bu) in
    let Aso := Z.lxor Bo (Z.land (not64 Bu) Ba) in
    let Agu := Z.lxor Bu (Z.land (not64 Ba) Be) in
    let Bu := ROL64 (Z.lxor Aga Da) 18 in
    let Ba := ROL64 (Z.lxor Ame De) 1 in
    let Be := ROL64 (Z.lxor Abi Di) 6 in
    let Bi := ROL64 (Z.lxor Ako Do) 25 in
    let Bo := ROL64 (Z.lxor Asu Du) 8 in
    let Aga := Z.lxor Ba (Z.land (not64 Be) Bi) in
    let Ame := Z.lxor Be (Z.land (not64 Bi) Bo) in
    let Abi := Z.lxor Bi (Z.land (not64 Bo) Bu) in
    let Ako := Z.lxor Bo (Z.land (not64 Bu) Ba) in
    let Asu := Z.lxor Bu (Z.land (not64 Ba) Be) in
    let Be := ROL64 (Z.lxor Asa Da) 36 in
    let Bi := ROL64 (Z.lxor Age De) 10 in
    let Bo := ROL64 (Z.lxor Ami Di) 15 in
    let Bu := ROL64 (Z.lxor Abo Do) 56 in
    let Ba := ROL64 (Z.lxor Aku Du) 27 in
    let Asa := Z.lxor Ba (Z.land (not64 Be) Bi) in
    let Age := Z.lxor Be (Z.land (not64 Bi) Bo) in
    let Ami := Z.lxor Bi (Z.land (not64 Bo) Bu) in
    let Abo := Z.lxor Bo (Z.land (not64 Bu) Ba) in
    let Aku := Z.lxor Bu (Z.land (not64 Ba) Be) in
    let Bo := ROL64 (Z.lxor Aka Da) 41 in
    let Bu := ROL64 (Z.lxor Ase De) 2 in
    let Ba := ROL64 (Z.lxor Agi Di) 62 in
    let Be := ROL64 (Z.lxor Amo Do) 55 in
    let Bi := ROL64 (Z.lxor Abu Du) 39 in
    let Aka := Z.lxor Ba (Z.land (not64 Be) Bi) in
    let Ase := Z.lxor Be (Z.land (not64 Bi) Bo) in
    let Agi := Z.lxor Bi (Z.land (not64 Bo) Bu) in
    let Amo := Z.lxor Bo (Z.land (not64 Bu) Ba) in
    let Abu := Z.lxor Bu (Z.land (not64 Ba) Be) in
    [Aba; Abe; Abi; Abo; Abu; Aga; Age; Agi; Ago; Agu; Aka; Ake; Aki; Ako; Aku; Ama; Ame; Ami; Amo; Amu; Asa; Ase; Asi; Aso; Asu]
  | _ => s
  end.
(** Round 3 of the four unrolled rounds, /repo/third_party/sha3.c:276-341; rc is KeccakF21600RoundConstants[i + 3] *)
Definition keccak_round3 (rc : Z) (s : list Z) : list Z :=
  match s with
  | [Aba; Abe; Abi; Abo; Abu; Aga; Age; Agi; Ago; Agu; Aka; Ake; Aki; Ako; Aku; Ama; Ame; Ami; Amo; Amu; Asa; Ase; Asi; Aso; Asu] =>
    let Ca := Z.lxor (Z.lxor (Z.lxor (Z.lxor Aba Ama) Aga) Asa) Aka in
    let Ce := Z.lxor (Z.lxor (Z.lxor (Z.lxor Ake Abe) Ame) Age) Ase in
    let Ci := Z.lxor (Z.lxor (Z.lxor (Z.lxor Asi Aki) Abi) Ami) Agi in
    let Co := Z.lxor (Z.lxor (Z.lxor (Z.lxor Ago Aso) Ako) Abo) Amo in
    let Cu := Z.lxor (Z.lxor (Z.lxor (Z.lxor Amu Agu) Asu) Aku) Abu in
    let Da := Z.lxor Cu (ROL64 Ce 1) in
    let De := Z.lxor Ca (ROL64 Ci 1) in
    let Di := Z.lxor Ce (ROL64 Co 1) in
    let Do := Z.lxor Ci (ROL64 Cu 1) in
    let Du := Z.lxor Co (ROL64 Ca 1) in
    let Ba := Z.lxor Aba Da in
    let Be := ROL64 (Z.lxor Abe De) 44 in
    let Bi := ROL64 (Z.lxor Abi Di) 43 in
    let Bo := ROL64 (Z.lxor Abo Do) 21 in
    let Bu := ROL64 (Z.lxor Abu Du) 14 in
    let Aba := Z.lxor Ba (Z.land (not64 Be) Bi) in
    let Aba := Z.lxor Aba rc in
    let Abe := Z.lxor Be (Z.land (not64 Bi) Bo) in
    let Abi := Z.lxor Bi (Z.land (not64 Bo) Bu) in
    let Abo := Z.lxor Bo (Z.land (not64 Bu) Ba) in
    let Abu := Z.lxor Bu (Z.land (not64 Ba) Be) in
    let Bi := ROL64 (Z.lxor Aga Da) 3 in
    let Bo := ROL64 (Z.lxor Age De) 45 in
    let Bu := ROL64 (Z.lxor Agi Di) 61 in
    let Ba := ROL64 (Z.lxor Ago Do) 28 in
    let Be := ROL64 (Z.lxor Agu Du) 20 in
    let Aga := Z.lxor Ba (Z.land (not64 Be) Bi) in
    let Age := Z.lxor Be (Z.land (not64 Bi) Bo) in
    let Agi := Z.lxor Bi (Z.land (not64 Bo) Bu) in
    let Ago := Z.lxor Bo (Z.land (not64 Bu) Ba) in
    let Agu := Z.lxor Bu (Z.land (not64 Ba) Be) in
    let Bu := ROL64 (Z.lxor Aka Da) 18 in
    let Ba := ROL64 (Z.lxor Ake De) 1 in
    let Be := ROL64 (Z.lxor Aki Di) 6 in
    let Bi := ROL64 (Z.lxor Ako Do) 25 in
    let Bo := ROL64 (Z.lxor Aku Du) 8 in
    let Aka := Z.lxor Ba (Z.land (not64 Be) Bi) in
    let Ake := Z.lxor Be (Z.land (not64 Bi) Bo) in
    let Aki := Z.lxor Bi (Z.land (not64 Bo) Bu) in
    let Ako := Z.lxor Bo (Z.land (not64 Bu) Ba) in
    let Aku := Z.lxor Bu (Z.land (not64 Ba) Be) in
    let Be := ROL64 (Z.lxor Ama Da) 36 in
    let Bi := ROL64 (Z.lxor Ame De) 10 in
    let Bo := ROL64 (Z.lxor Ami Di) 15 in
    let Bu := ROL64 (Z.lxor Amo Do) 56 in
    let Ba := ROL64 (Z.lxor Amu Du) 27 in
    let Ama := Z.lxor Ba (Z.land (not64 Be) Bi) in
    let Ame := Z.lxor Be (Z.land (not64 Bi) Bo) in
    let Ami := Z.lxor Bi (Z.land (not64 Bo) Bu) in
    let Amo := Z.lxor Bo (Z.land (not64 Bu) Ba) in
    let Amu := Z.lxor Bu (Z.land (not64 Ba) Be) in
    let Bo := ROL64 (Z.lxor Asa Da) 41 in
    let Bu := ROL64 (Z.lxor Ase De) 2 in
    let Ba := ROL64 (Z.lxor Asi Di) 62 in
    let Be := ROL64 (Z.lxor Aso Do) 55 in
    let Bi := ROL64 (Z.lxor Asu Du) 39 in
    let Asa := Z.lxor Ba (Z.land (not64 Be) Bi) in
    let Ase := Z.lxor Be (Z.land (not64 Bi) Bo) in
    let Asi := Z.lxor Bi (Z.land (not64 Bo) Bu) in
    let Aso := Z.lxor Bo (Z.land (not64 Bu) Ba) in
    let Asu := Z.lxor Bu (Z.land (not64 Ba) Be) in
    [Aba; Abe; Abi; Abo; Abu; Aga; Age; Agi; Ago; Agu; Aka; Ake; Aki; Ako; Aku; Ama; Ame; Ami; Amo; Amu; Asa; Ase; Asi; Aso; Asu]
  | _ => s
  end.
(** KeccakF2, :40-368: n iterations of the loop from i *)
Fixpoint keccak_loop (n i : nat) (s : list Z) : list Z :=
  match n with
  | O => s
  | S n =>
    let RCi j := nth (i + j) KeccakF21600RoundConstants 0 in
    keccak_loop n (i + 4) (keccak_round3 (RCi 3%nat) (keccak_round2 (RCi 2%nat) (keccak_round1 (RCi 1%nat) (keccak_round0 (RCi 0%nat) s))))
  end.
Definition KeccakF2 (s : list Z) : list Z := keccak_loop 6 0 s.
(** KeccakF2((uint64_t * ) state->s) on bytes *)
Definition KeccakF2_bytes (s : list Z) : list Z := bytes_of (KeccakF2 (words_of 25 s)).

(** hashState, sha3.h:16-21 *)
Record hashState := HashState { hs : list Z; hashbitlen : Z; statebitlen : Z; rate : Z }.
(** Init, :374-386; hashbitlen is positive and at most 800 *)
Definition Init (hashbitlen : Z) : hashState := HashState (repeat 0 200) hashbitlen 0 (1600 - hashbitlen * 2).
(** s[i] = s[i] ^ tmp[i - start] for |tmp| consecutive i from start *)
Fixpoint xor_bytes (s tmp : list Z) : list Z :=
  match s, tmp with
  | x :: s, y :: tmp => Z.lxor x y :: xor_bytes s tmp
  | s, _ => s
  end.
Definition xor_at (s : list Z) (start : nat) (tmp : list Z) : list Z := firstn start s ++ xor_bytes (skipn start s) tmp.
(** The while loop of Update, :397-408: an iteration consumes at least a byte, so that one more than |tmp|
    iterations suffice; lentmp is the number of bits left, its arithmetic is on 64 bits *)
Fixpoint update_loop (fuel : nat) (st : hashState) (tmp : list Z) (lentmp : Z) : hashState * list Z * Z :=
  match fuel with
  | O => (st, tmp, lentmp)
  | S f =>
    if rate st <=? (statebitlen st + lentmp) mod 2 ^ 64 then
      let n := Z.to_nat (rate st / 8 - statebitlen st / 8) in
      let s := KeccakF2_bytes (xor_at (hs st) (Z.to_nat (statebitlen st / 8)) (firstn n tmp)) in
      update_loop f (HashState s (hashbitlen st) 0 (rate st)) (skipn (Z.to_nat ((rate st - statebitlen st) / 8)) tmp)
        ((lentmp - (rate st - statebitlen st)) mod 2 ^ 64)
    else (st, tmp, lentmp)
  end.
(** Update, :391-421; databitlen is the argument of the call *)
Definition Update (st : hashState) (data : list Z) (databitlen : Z) : hashState :=
  let '(st, tmp, lentmp) := update_loop (S (length data)) st data databitlen in
  let start := statebitlen st / 8 in
  let end_ := (statebitlen st + lentmp) mod 2 ^ 64 / 8 in
  HashState (xor_at (hs st) (Z.to_nat start) (firstn (Z.to_nat (end_ - start)) tmp)) (hashbitlen st)
    ((lentmp + statebitlen st) mod 2 ^ 32) (rate st).
(** while (d_byte > r) of Final2 and of the one-shot functions: the bytes written; get gives the first bytes of the state *)
Fixpoint squeeze_loop {A : Type} (fuel : nat) (get : nat -> A -> list Z) (next : A -> A) (r d : nat) (s : A) : list Z :=
  match fuel with
  | O => []
  | S f => if (r <? d)%nat then get r s ++ squeeze_loop f get next r (d - r) (next s) else get d s
  end.
(** Final2, :442-465 *)
Definition Final2 (st : hashState) (d_byte : nat) : list Z :=
  let sbytelen := Z.to_nat (statebitlen st / 8) in
  let r := Z.to_nat (rate st / 8) in
  let s := xor_at (hs st) sbytelen [0x1F] in
  let s := xor_at s (r - 1) [0x80] in
  squeeze_loop (S d_byte) (@firstn Z) KeccakF2_bytes r d_byte (KeccakF2_bytes s).
(** s[j] = s[j] ^ ((uint64_t * ) tmp)[j] for j < nr *)
Definition xor_words (nr : nat) (s tmp : list Z) : list Z := xor_bytes s (words_of nr tmp).
(** The first loop of SHAKE128 and SHAKE256, :507-512, :556-561: the state and the remaining bytes *)
Fixpoint shake_blocks (fuel r : nat) (s tmp : list Z) : list Z * list Z :=
  match fuel with
  | O => (s, tmp)
  | S f => if (r <=? length tmp)%nat then shake_blocks f r (KeccakF2 (xor_words (r / 8) s tmp)) (skipn r tmp) else (s, tmp)
  end.
(** SHAKE128, :493-539, and SHAKE256, :541-588, which differ by r; databitlen is 8 |data|.  temp
    has 170 or 140 bytes, of which the first r are used *)
Definition shake_oneshot (r : nat) (data : list Z) (d_byte : nat) : list Z :=
  let '(s, tmp) := shake_blocks (length data) r (repeat 0 25) data in
  let inlen := length tmp in
  let temp := tmp ++ [0x1F] ++ repeat 0 (r - (inlen + 1)) in
  let temp := firstn (r - 1) temp ++ [Z.lor (nth (r - 1) temp 0) 0x80] in
  let s := KeccakF2 (xor_words (r / 8) s temp) in
  squeeze_loop (S d_byte) (fun n s => firstn n (bytes_of s)) KeccakF2 r d_byte s.
Definition SHAKE256 (data : list Z) (d_byte : nat) : list Z := shake_oneshot 136 data d_byte.
Definition SHAKE128 (data : list Z) (d_byte : nat) : list Z := shake_oneshot 168 data d_byte.
(** A sequence of Update calls with whole bytes, as in sign448.c *)
Definition Update_all (st : hashState) (chunks : list (list Z)) : hashState :=
  fold_left (fun st d => Update st d (8 * Z.of_nat (length d))) chunks st.
