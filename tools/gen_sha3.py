import re
L=open('/repo/third_party/sha3.c').read().split('\n')
rcs=[re.search(r'0x[0-9a-f]+',l).group(0) for l in L[13:38] if '0x' in l]
assert len(rcs)==24,len(rcs)
names=["A"+c+v for c in "bgkms" for v in "aeiou"]
st=[i for i,l in enumerate(L) if 'for (i = 0; i < 24; i += 4)' in l][0]
en=[i for i,l in enumerate(L) if i>st and l=='\t}'][0]
segs=[];cur=None
for i in range(st+1,en):
    l=L[i].strip()
    if not l or l.startswith('/*'): continue
    if l.startswith('Ca ='): cur=[];segs.append(cur)
    cur.append((i+1,l))
assert len(segs)==4
def conv(e,i):
    # tokens
    tok=re.findall(r'ROL64|KeccakF21600RoundConstants\[i \+ \d\]|[A-Za-z]+|\d+|[\^&~(),]',e)
    pos=0
    def peek(): return tok[pos] if pos<len(tok) else None
    def nxt():
        nonlocal pos; pos+=1; return tok[pos-1]
    def prim():
        t=nxt()
        if t=='(':
            r=xor(); assert nxt()==')'; return r
        if t=='~':
            return '(not64 %s)'%prim()
        if t=='ROL64':
            assert nxt()=='('; a=xor(); assert nxt()==','; n=nxt(); assert nxt()==')'; return '(ROL64 %s %s)'%(a,n)
        if t.startswith('Kecc'): return 'rc'
        assert re.match('^[A-Z][a-z]+$',t),t
        return t
    def land():
        r=prim()
        while peek()=='&': nxt(); r='(Z.land %s %s)'%(r,prim())
        return r
    def xor():
        r=land()
        while peek()=='^': nxt(); r='(Z.lxor %s %s)'%(r,land())
        return r
    r=xor(); assert pos==len(tok),(e,tok[pos:])
    return r
out=[]
for j,sg in enumerate(segs):
    body=[]
    for ln,l in sg:
        m=re.match(r'^(\w+) (\^?)= (.*);$',l); assert m,l
        v,x,e=m.groups()
        k=re.search(r'Constants\[i \+ (\d)\]',e)
        if k: assert int(k.group(1))==j
        c=conv(e,j)
        if x: c='(Z.lxor %s %s)'%(v,c)
        body.append('    let %s := %s in'%(v,c[1:-1] if c[0]=='(' else c))
    out.append('(** Round %d of the four unrolled rounds, /repo/third_party/sha3.c:%d-%d; rc is KeccakF21600RoundConstants[i + %d] *)\nDefinition keccak_round%d (rc : Z) (s : list Z) : list Z :=\n  match s with\n  | [%s] =>\n%s\n    [%s]\n  | _ => s\n  end.'%(j,sg[0][0],sg[-1][0],j,j,'; '.join(names),'\n'.join(body),'; '.join(names)))
hdr='''(** Keccak and SHAKE as computed by /repo/third_party/sha3.c.  The 200 bytes of a hashState are a list of
    bytes, the uint64_t array of the one-shot functions a list of 25 words; the casts between them are
    the little-endian conversions of Bytes.v.  The rounds are printed by a script from the C text, with one
    let per assignment.  Final, Hash and Hash2 are not modelled: the library does not call them. *)
From Coq Require Import ZArith List Bool.
From Verif Require Import Bytes.
Import ListNotations.
Open Scope Z_scope.

(** ROL64, :10; a << offset drops the high bits *)
Definition ROL64 (a offset : Z) : Z := Z.lxor (Z.shiftl a offset mod 2 ^ 64) (Z.shiftr a (64 - offset)).
(** ~ on uint64_t *)
Definition not64 (a : Z) : Z := Z.lxor a 0xFFFFFFFFFFFFFFFF.
(** KeccakF21600RoundConstants, :12-38 *)
Definition KeccakF21600RoundConstants : list Z := [
  %s].
'''%(';\n  '.join('; '.join(rcs[i:i+4]) for i in range(0,24,4)))
tail='''
(** KeccakF2, :40-368: n iterations of the loop from i *)
Fixpoint keccak_loop (n i : nat) (s : list Z) : list Z :=
  match n with
  | O => s
  | S n =>
    let RCi j := nth (i + j) KeccakF21600RoundConstants 0 in
    keccak_loop n (i + 4) (keccak_round3 (RCi 3%nat) (keccak_round2 (RCi 2%nat) (keccak_round1 (RCi 1%nat) (keccak_round0 (RCi 0%nat) s))))
  end.
Definition KeccakF2 (s : list Z) : list Z := keccak_loop 6 0 s.
(** KeccakF2((uint64_t * ) state->s) on bytes *)
Definition KeccakF2_bytes (s : list Z) : list Z := bytes_of (KeccakF2 (words_of 25 s)).

(** hashState, sha3.h:16-21 *)
Record hashState := HashState { hs : list Z; hashbitlen : Z; statebitlen : Z; rate : Z }.
(** Init, :374-386; hashbitlen is positive and at most 800 *)
Definition Init (hashbitlen : Z) : hashState := HashState (repeat 0 200) hashbitlen 0 (1600 - hashbitlen * 2).
(** s[i] = s[i] ^ tmp[i - start] for |tmp| consecutive i from start *)
Fixpoint xor_bytes (s tmp : list Z) : list Z :=
  match s, tmp with
  | x :: s, y :: tmp => Z.lxor x y :: xor_bytes s tmp
  | s, _ => s
  end.
Definition xor_at (s : list Z) (start : nat) (tmp : list Z) : list Z := firstn start s ++ xor_bytes (skipn start s) tmp.
(** The while loop of Update, :397-408: an iteration consumes at least a byte, so that one more than |tmp|
    iterations suffice; lentmp is the number of bits left, its arithmetic is on 64 bits *)
Fixpoint update_loop (fuel : nat) (st : hashState) (tmp : list Z) (lentmp : Z) : hashState * list Z * Z :=
  match fuel with
  | O => (st, tmp, lentmp)
  | S f =>
    if rate st <=? (statebitlen st + lentmp) mod 2 ^ 64 then
      let n := Z.to_nat (rate st / 8 - statebitlen st / 8) in
      let s := KeccakF2_bytes (xor_at (hs st) (Z.to_nat (statebitlen st / 8)) (firstn n tmp)) in
      update_loop f (HashState s (hashbitlen st) 0 (rate st)) (skipn (Z.to_nat ((rate st - statebitlen st) / 8)) tmp)
        ((lentmp - (rate st - statebitlen st)) mod 2 ^ 64)
    else (st, tmp, lentmp)
  end.
(** Update, :391-421; databitlen is the argument of the call *)
Definition Update (st : hashState) (data : list Z) (databitlen : Z) : hashState :=
  let '(st, tmp, lentmp) := update_loop (S (length data)) st data databitlen in
  let start := statebitlen st / 8 in
  let end_ := (statebitlen st + lentmp) mod 2 ^ 64 / 8 in
  HashState (xor_at (hs st) (Z.to_nat start) (firstn (Z.to_nat (end_ - start)) tmp)) (hashbitlen st)
    ((lentmp + statebitlen st) mod 2 ^ 32) (rate st).
(** while (d_byte > r) of Final2 and of the one-shot functions: the bytes written; get gives the first bytes of the state *)
Fixpoint squeeze_loop {A : Type} (fuel : nat) (get : nat -> A -> list Z) (next : A -> A) (r d : nat) (s : A) : list Z :=
  match fuel with
  | O => []
  | S f => if (r <? d)%nat then get r s ++ squeeze_loop f get next r (d - r) (next s) else get d s
  end.
(** Final2, :442-465 *)
Definition Final2 (st : hashState) (d_byte : nat) : list Z :=
  let sbytelen := Z.to_nat (statebitlen st / 8) in
  let r := Z.to_nat (rate st / 8) in
  let s := xor_at (hs st) sbytelen [0x1F] in
  let s := xor_at s (r - 1) [0x80] in
  squeeze_loop (S d_byte) (@firstn Z) KeccakF2_bytes r d_byte (KeccakF2_bytes s).
(** s[j] = s[j] ^ ((uint64_t * ) tmp)[j] for j < nr *)
Definition xor_words (nr : nat) (s tmp : list Z) : list Z := xor_bytes s (words_of nr tmp).
(** The first loop of SHAKE128 and SHAKE256, :507-512, :556-561: the state and the remaining bytes *)
Fixpoint shake_blocks (fuel r : nat) (s tmp : list Z) : list Z * list Z :=
  match fuel with
  | O => (s, tmp)
  | S f => if (r <=? length tmp)%nat then shake_blocks f r (KeccakF2 (xor_words (r / 8) s tmp)) (skipn r tmp) else (s, tmp)
  end.
(** SHAKE128, :493-539, and SHAKE256, :541-588, which differ by r; databitlen is 8 |data|.  temp
    has 170 or 140 bytes, of which the first r are used *)
Definition shake_oneshot (r : nat) (data : list Z) (d_byte : nat) : list Z :=
  let '(s, tmp) := shake_blocks (length data) r (repeat 0 25) data in
  let inlen := length tmp in
  let temp := tmp ++ [0x1F] ++ repeat 0 (r - (inlen + 1)) in
  let temp := firstn (r - 1) temp ++ [Z.lor (nth (r - 1) temp 0) 0x80] in
  let s := KeccakF2 (xor_words (r / 8) s temp) in
  squeeze_loop (S d_byte) (fun n s => firstn n (bytes_of s)) KeccakF2 r d_byte s.
Definition SHAKE256 (data : list Z) (d_byte : nat) : list Z := shake_oneshot 136 data d_byte.
Definition SHAKE128 (data : list Z) (d_byte : nat) : list Z := shake_oneshot 168 data d_byte.
(** A sequence of Update calls with whole bytes, as in sign448.c *)
Definition Update_all (st : hashState) (chunks : list (list Z)) : hashState :=
  fold_left (fun st d => Update st d (8 * Z.of_nat (length d))) chunks st.
'''
open('/verif/rocq/theories/Sha3.v','w').write(hdr+'\n'.join(out)+tail)
