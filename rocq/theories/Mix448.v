(** The products (Y - X) s and (Y + X) a of the mixed additions of edwards448, their sum and their difference. *)
From Coq Require Import ZArith List Bool Lia.
From Verif Require Import Uop X86 Sym Engine Bytes Check FullTac Lanes RedTac Simd Simd448 Fp448Full Fp448FullProofs FullMore
  Fp25519Red Fp25519RedProofs Fp448Red Fp448RedProofs Fp448RedMore Fp448RedRoot Spec Ladder LadderProofs LadderVec LadderVec448 SpecEd SpecIso CurveInst EdInst448
  Edwards255 EdVec Edwards255Proofs Verify255 Verify255Proofs Edwards448 EdVec448 Edwards448Proofs Prod448 Limb448.
Import ListNotations.
Open Scope Z_scope.
(** ** Limb-wise sums and differences as integers *)
Fixpoint vsub3 (b a c : list Z) : list Z := match b, a, c with x :: b, y :: a, z :: c => (x - y + z) :: vsub3 b a c | _, _, _ => [] end.
Fixpoint vadd3 (b a c : list Z) : list Z := match b, a, c with x :: b, y :: a, z :: c => (x + y + z) :: vadd3 b a c | _, _, _ => [] end.
Notation modw := (map (fun v => v mod W)).
Lemma combs_vsub : forall b a c : list Z, combs b a (repeat 0 (length b)) c = modw (vsub3 b a c).
Proof.
  induction b as [|x b IH]; intros a c; [reflexivity|]. destruct a as [|y a]; [reflexivity|]. destruct c as [|z c]; [reflexivity|].
  cbn [combs repeat length vsub3 map]. rewrite IH. f_equal. unfold comb. f_equal. ring.
Qed.
Lemma combs_vadd : forall b a c : list Z, length b = length a -> length c = length a ->
  combs (combs b (repeat 0 (length a)) (repeat 0 (length a)) c) (repeat 0 (length a)) (repeat 0 (length a)) a = modw (vadd3 b a c).
Proof.
  induction b as [|x b IH]; intros a c H K; destruct a as [|y a]; try discriminate H; [reflexivity|]. destruct c as [|z c]; [discriminate K|].
  cbn [combs repeat length vadd3 map]. rewrite IH by (injection H as H; injection K as K; assumption). f_equal. unfold comb.
  rewrite !Z.sub_0_r, Zplus_mod_idemp_l. f_equal. ring.
Qed.
Lemma combs_vadd0 : forall b a : list Z, length b = length a -> combs b (repeat 0 (length a)) (repeat 0 (length a)) a = modw (vadd3 b a (repeat 0 (length a))).
Proof.
  induction b as [|x b IH]; intros a H; destruct a as [|y a]; try discriminate H; [reflexivity|].
  cbn [combs repeat length vadd3 map]. rewrite IH by (injection H as H; assumption). f_equal. unfold comb. f_equal. ring.
Qed.
Lemma modw_id : forall bs v, word_bounds bs = true -> arr_ok bs v -> modw v = v.
Proof.
  induction bs as [|[l h] bs IH]; intros v Hb Ha; inversion Ha as [|? ? ? ? H1 H2]; subst; [reflexivity|].
  unfold word_bounds in Hb. cbn [forallb fst snd] in Hb. apply andb_true_iff in Hb as [Hb0 Hb]. apply andb_true_iff in Hb0 as [Hl Hh]. apply Z.leb_le in Hl. apply Z.ltb_lt in Hh.
  unfold inI in H1. cbn [fst snd] in H1. cbn [map]. rewrite (IH _ Hb H2), Z.mod_small by lia. reflexivity.
Qed.
Lemma wsum_vsub : forall w b a c, length b = length a -> length c = length a -> wsum w (vsub3 b a c) = wsum w b - wsum w a + wsum w c.
Proof.
  induction w as [|w0 w IH]; intros b a c H K; [destruct b, a, c; reflexivity|]. destruct b, a, c; try discriminate H; try discriminate K; [reflexivity|].
  cbn [vsub3 wsum]. rewrite IH by (injection H as H; injection K as K; assumption). ring.
Qed.
Lemma wsum_vadd : forall w b a c, length b = length a -> length c = length a -> wsum w (vadd3 b a c) = wsum w b + wsum w a + wsum w c.
Proof.
  induction w as [|w0 w IH]; intros b a c H K; [destruct b, a, c; reflexivity|]. destruct b, a, c; try discriminate H; try discriminate K; [reflexivity|].
  cbn [vadd3 wsum]. rewrite IH by (injection H as H; injection K as K; assumption). ring.
Qed.
Fixpoint outs (bb bc : list (Z * Z)) : list (Z * Z) := match bb, bc with x :: bb, y :: bc => (0, snd x + snd y) :: outs bb bc | _, _ => [] end.
Lemma vsub_ok : forall bb ba bc b a c, arr_ok bb b -> arr_ok ba a -> arr_ok bc c -> pos_lo ba = true -> length ba = length bb -> no_borrow b a c ->
  arr_ok (outs bb bc) (vsub3 b a c).
Proof.
  induction bb as [|[lb hb] bb IH]; intros ba bc b a c Hb Ha Hc Pa L N; inversion Hb as [|? b0 ? b' B0 B]; subst; [constructor|].
  destruct ba as [|[la ha] ba]; [discriminate L|]. inversion Ha as [|? a0 ? a' A0 A]; subst. destruct bc as [|[lc hc] bc]; inversion Hc as [|? c0 ? c' C0 C]; subst; [constructor|].
  cbn [pos_lo forallb fst] in Pa. apply andb_true_iff in Pa as [Pa0 Pa]. apply Z.leb_le in Pa0. destruct N as [N0 N]. cbn [length] in L. injection L as L.
  cbn [vsub3 outs]. constructor; [|exact (IH _ _ _ _ _ B A C Pa L N)]. unfold inI in *. cbn [fst snd] in *. lia.
Qed.
(** ** Bounds of products *)
Definition mpb (ba bb : list (Z * Z)) : list (Z * Z) := map (fun c => (0, bil c (map snd ba) (map snd bb))) rows.
Lemma arr_below : forall bs a, pos_lo bs = true -> arr_ok bs a -> below a (map snd bs).
Proof.
  induction bs as [|[l h] bs IH]; intros a P A; inversion A as [|? ? ? ? H1 H2]; subst; intro k; [destruct k; cbn; lia|].
  cbn [pos_lo forallb fst] in P. apply andb_true_iff in P as [P0 P]. apply Z.leb_le in P0. destruct k as [|k]; cbn [map nth snd].
  - unfold inI in H1. cbn [fst snd] in H1. lia.
  - exact (IH _ P H2 k).
Qed.
Lemma map_arr {A} (f : A -> Z * Z) (g : A -> Z) : forall l, (forall x, In x l -> inI (f x) (g x)) -> arr_ok (map f l) (map g l).
Proof. induction l as [|x l IH]; intro H; [constructor|]. cbn [map]. constructor; [apply H; now left|apply IH; intros y Hy; apply H; now right]. Qed.
Lemma rows_rpos c : In c rows -> rpos c = true.
Proof. intro H. pose proof rows_pos as P. rewrite forallb_forall in P. exact (P c H). Qed.
Lemma mp16_bound ba bb a b : pos_lo ba = true -> pos_lo bb = true -> arr_ok ba a -> arr_ok bb b -> arr_ok (mpb ba bb) (mp16 a b).
Proof.
  intros Pa Pb A B. apply map_arr. intros c Hc. unfold inI. cbn [fst snd].
  apply bil_mono; [exact (rows_rpos c Hc)|apply arr_below; assumption|apply arr_below; assumption].
Qed.
(** ** The two products *)
Section Core.
Variables x y s a : list Z.
Hypotheses (Hx : is_red448 x) (Hy : is_red448 y) (Hs : is_red448 s) (Ha : is_red448 a).
Definition ymx : list Z := vsub3 y x limbs_2P448.
Definition ypx : list Z := vadd3 y x z16.
Definition b2p : list (Z * Z) := Eval vm_compute in map (fun x => (x, x)) limbs_2P448.
Definition b34 : list (Z * Z) := Eval vm_compute in map (fun x => (x, x)) limbs_2_34P448.
Lemma b2p_ok : arr_ok b2p limbs_2P448. Proof. apply arr_lit. vm_compute. reflexivity. Qed.
Lemma b34_ok : arr_ok b34 limbs_2_34P448. Proof. apply arr_lit. vm_compute. reflexivity. Qed.
Lemma red_small : forall bx by' bc x y c, arr_ok bx x -> arr_ok by' y -> arr_ok bc c -> pos_lo by' = true ->
  (fix le (p q r : list (Z * Z)) : bool := match p, q, r with u :: p, v :: q, w :: r => (snd v <=? fst u + fst w) && le p q r | _, _, _ => true end) bx by' bc = true -> no_borrow x y c.
Proof.
  induction bx as [|[lx hx] bx IH]; intros by' bc x' y' c X Y C P H; inversion X as [|? x0 ? x1 X0 X1]; subst; [exact Logic.I|].
  destruct by' as [|[ly hy] by']; inversion Y as [|? y0 ? y1 Y0 Y1]; subst; [exact Logic.I|]. destruct bc as [|[lc hc] bc]; inversion C as [|? c0 ? c1 C0 C1]; subst; [exact Logic.I|].
  apply andb_true_iff in H as [H0 H]. apply Z.leb_le in H0. cbn [pos_lo forallb fst] in P. apply andb_true_iff in P as [_ P].
  unfold inI in *. cbn [fst snd] in *. split; [lia|]. exact (IH _ _ _ _ _ X1 Y1 C1 P H).
Qed.
Definition wsub448 : list (Z * Z) := Eval vm_compute in outs red448 b2p.
Lemma ymx_ok : arr_ok wsub448 ymx.
Proof. apply (vsub_ok red448 red448 b2p _ _ _ Hy Hx b2p_ok); [reflexivity|reflexivity|]. apply (red_small red448 red448 b2p _ _ _ Hy Hx b2p_ok); reflexivity. Qed.
Lemma ymx_wide : is_wide448 ymx. Proof. exact (bounds_le_ok wsub448 wide448 _ eq_refl ymx_ok). Qed.
Lemma ymx_eq : combs y x z16 limbs_2P448 = ymx.
Proof.
  pose proof (combs_vsub y x limbs_2P448) as E. rewrite (arr_len _ _ Hy) in E. change (length red448) with 16%nat in E. rewrite E.
  exact (modw_id wsub448 _ eq_refl ymx_ok).
Qed.
Definition vadd_b (bb ba bc : list (Z * Z)) : list (Z * Z) := map (fun t => (0, snd (fst (fst t)) + snd (snd (fst t)) + snd (snd t))) (combine (combine bb ba) bc).
Lemma vadd_ok : forall bb ba bc b a c, arr_ok bb b -> arr_ok ba a -> arr_ok bc c -> pos_lo bb = true -> pos_lo ba = true -> pos_lo bc = true -> arr_ok (vadd_b bb ba bc) (vadd3 b a c).
Proof.
  induction bb as [|[lb hb] bb IH]; intros ba bc b a' c Hb Ha' Hc Pb Pa Pc; inversion Hb as [|? b0 ? b' B0 B]; subst; [constructor|].
  destruct ba as [|[la ha] ba]; inversion Ha' as [|? a0 ? a'' A0 A]; subst; [constructor|]. destruct bc as [|[lc hc] bc]; inversion Hc as [|? c0 ? c' C0 C]; subst; [constructor|].
  cbn [pos_lo forallb fst] in Pa, Pb, Pc. apply andb_true_iff in Pa as [Pa0 Pa]. apply andb_true_iff in Pb as [Pb0 Pb]. apply andb_true_iff in Pc as [Pc0 Pc]. apply Z.leb_le in Pa0, Pb0, Pc0.
  cbn [vadd3 vadd_b combine map]. constructor; [|exact (IH _ _ _ _ _ B A C Pb Pa Pc)]. unfold inI in *. cbn [fst snd] in *. lia.
Qed.
Definition wadd448 : list (Z * Z) := Eval vm_compute in vadd_b red448 red448 zb16.
Lemma ypx_ok : arr_ok wadd448 ypx. Proof. exact (vadd_ok red448 red448 zb16 _ _ _ Hy Hx zeros16 eq_refl eq_refl eq_refl). Qed.
Lemma ypx_wide : is_wide448 ypx. Proof. exact (bounds_le_ok wadd448 wide448 _ eq_refl ypx_ok). Qed.
Lemma ypx_eq : combs y z16 z16 x = ypx.
Proof.
  pose proof (combs_vadd0 y x) as E. rewrite (arr_len _ _ Hy), (arr_len _ _ Hx) in E. change (length red448) with 16%nat in E. rewrite E by reflexivity.
  exact (modw_id wadd448 _ eq_refl ypx_ok).
Qed.
Lemma len_mp u v : length (mp16 u v) = 16%nat. Proof. reflexivity. Qed.
Definition mA : list (Z * Z) := Eval vm_compute in mpb wsub448 red448.
Definition mB : list (Z * Z) := Eval vm_compute in mpb wadd448 red448.
Lemma A_ok : arr_ok mA (mp16 ymx s). Proof. exact (mp16_bound wsub448 red448 _ _ eq_refl eq_refl ymx_ok Hs). Qed.
Lemma B_ok : arr_ok mB (mp16 ypx a). Proof. exact (mp16_bound wadd448 red448 _ _ eq_refl eq_refl ypx_ok Ha). Qed.
(** The sum of the two products: the terms with X cancel *)
Definition hyc : list Z := Eval vm_compute in map (fun t => 2 * snd (fst t) + snd t) (combine red448 limbs_2P448).
Definition redh : list Z := Eval vm_compute in map snd red448.
Lemma terms_gen : forall by' bx cs y x k, arr_ok by' y -> arr_ok bx x -> length by' = length bx -> length cs = length bx ->
  nth k (vsub3 y x cs) 0 + nth k (vadd3 y x (repeat 0 (length bx))) 0 <= nth k (map (fun t => 2 * snd (fst t) + snd t) (combine by' cs)) 0.
Proof.
  induction by' as [|[l h] by' IH]; intros bx cs y' x' k Y X L C; inversion Y as [|? y0 ? y1 Y0 Y1]; subst; [destruct k; cbn; lia|].
  destruct bx as [|b bx]; [discriminate L|]. destruct cs as [|c0 cs]; [discriminate C|]. inversion X as [|? x0 ? x1 X0 X1]; subst.
  injection L as L. injection C as C. cbn [vsub3 vadd3 repeat length combine map fst snd]. destruct k as [|k]; cbn [nth]; [unfold inI in Y0; cbn [fst snd] in Y0; lia|exact (IH _ _ _ _ _ Y1 X1 L C)].
Qed.
Lemma sum_terms k : nth k ymx 0 + nth k ypx 0 <= nth k hyc 0.
Proof. exact (terms_gen red448 red448 limbs_2P448 y x k Hy Hx eq_refl eq_refl). Qed.
Definition mS : list (Z * Z) := Eval vm_compute in map (fun c => (0, bil c hyc redh)) rows.
Lemma S_ok c : In c rows -> 0 <= bil c ypx a + bil c ymx s <= bil c hyc redh.
Proof.
  intro Hc. pose proof (rows_rpos c Hc) as P.
  pose proof (bil_mono c ypx _ a _ P (arr_below wadd448 ypx eq_refl ypx_ok) (arr_below red448 a eq_refl Ha)) as B1.
  pose proof (bil_mono c ymx _ s _ P (arr_below wsub448 ymx eq_refl ymx_ok) (arr_below red448 s eq_refl Hs)) as B2.
  split; [lia|]. pose proof (bil_sum_le c ypx a ymx s hyc redh [] [] P) as E. assert (Z0 : bil c [] [] = 0).
  { clear. induction c as [|[[k l] z] c IH]; [reflexivity|]. cbn [bil]. rewrite IH. destruct k, l; cbn [nth]; ring. }
  rewrite Z0, Z.add_0_r in E. apply E. intros k l. replace (nth k [] 0) with 0 by (destruct k; reflexivity). rewrite Z.mul_0_l, Z.add_0_r.
  pose proof (arr_below wadd448 ypx eq_refl ypx_ok k) as K1. pose proof (arr_below wsub448 ymx eq_refl ymx_ok k) as K2.
  pose proof (arr_below red448 a eq_refl Ha l) as L1. pose proof (arr_below red448 s eq_refl Hs l) as L2. pose proof (sum_terms k) as T.
  change (map snd red448) with redh in L1, L2.
  set (p := nth k ypx 0) in *. set (q := nth k ymx 0) in *. set (u := nth l a 0) in *. set (v := nth l s 0) in *. set (r := nth l redh 0) in *. set (h := nth k hyc 0) in *.
  clearbody p q u v r h. clear - K1 K2 L1 L2 T. nia.
Qed.
Lemma S_arr : arr_ok mS (vadd3 (mp16 ypx a) (mp16 ymx s) z16).
Proof.
  assert (E : forall l, vadd3 (map (fun c => bil c ypx a) l) (map (fun c => bil c ymx s) l) (repeat 0 (length l)) = map (fun c => bil c ypx a + bil c ymx s) l).
  { induction l as [|c l IH]; [reflexivity|]. cbn [map length repeat vadd3]. rewrite IH. f_equal. ring. }
  change z16 with (repeat 0 (length rows)). unfold mp16. rewrite E.
  change mS with (map (fun c => (0, bil c hyc redh)) rows). apply map_arr. intros c Hc. exact (S_ok c Hc).
Qed.
Lemma vadd3_assoc : forall b a c, length b = length a -> length c = length a -> vadd3 b a c = vadd3 (vadd3 b a (repeat 0 (length a))) c (repeat 0 (length a)).
Proof.
  induction b as [|b0 b IH]; intros a' c H K; destruct a' as [|a0 a']; try discriminate H; [reflexivity|]. destruct c as [|c0 c]; [discriminate K|].
  cbn [vadd3 repeat length]. rewrite IH by (injection H as H; injection K as K; assumption). f_equal. ring.
Qed.
Definition mS34 : list (Z * Z) := Eval vm_compute in vadd_b mS b34 zb16.
Lemma S34_arr : arr_ok mS34 (vadd3 (mp16 ypx a) (mp16 ymx s) limbs_2_34P448).
Proof.
  rewrite vadd3_assoc by reflexivity. change (length (mp16 ymx s)) with 16%nat. apply (vadd_ok mS b34 zb16); [exact S_arr|exact b34_ok|exact zeros16|reflexivity..].
Qed.
(** H = B + A, with and without 2^34 p, never overflows *)
Theorem H_sum : combs (mp16 ypx a) z16 z16 (mp16 ymx s) = vadd3 (mp16 ypx a) (mp16 ymx s) z16.
Proof. exact (eq_trans (combs_vadd0 (mp16 ypx a) (mp16 ymx s) eq_refl) (modw_id mS _ eq_refl S_arr)). Qed.
Theorem H_sum34 : combs (combs (mp16 ypx a) z16 z16 limbs_2_34P448) z16 z16 (mp16 ymx s) = vadd3 (mp16 ypx a) (mp16 ymx s) limbs_2_34P448.
Proof. exact (eq_trans (combs_vadd (mp16 ypx a) (mp16 ymx s) limbs_2_34P448 eq_refl eq_refl) (modw_id mS34 _ eq_refl S34_arr)). Qed.
Lemma H_big : is_big448 (vadd3 (mp16 ypx a) (mp16 ymx s) z16). Proof. exact (bounds_le_ok mS big448 _ eq_refl S_arr). Qed.
Lemma H_big34 : is_big448 (vadd3 (mp16 ypx a) (mp16 ymx s) limbs_2_34P448). Proof. exact (bounds_le_ok mS34 big448 _ eq_refl S34_arr). Qed.
(** E = B - A + 2^34 p, when no limb borrows *)
Definition clean448 : Prop := no_borrow (mp16 ypx a) (mp16 ymx s) limbs_2_34P448.
Definition mE : list (Z * Z) := Eval vm_compute in outs mB b34.
Lemma E_arr : clean448 -> arr_ok mE (vsub3 (mp16 ypx a) (mp16 ymx s) limbs_2_34P448).
Proof. intro H. exact (vsub_ok mB mA b34 _ _ _ B_ok A_ok b34_ok eq_refl eq_refl H). Qed.
Theorem E_diff : clean448 -> combs (mp16 ypx a) (mp16 ymx s) z16 limbs_2_34P448 = vsub3 (mp16 ypx a) (mp16 ymx s) limbs_2_34P448.
Proof. intro H. exact (eq_trans (combs_vsub (mp16 ypx a) (mp16 ymx s) limbs_2_34P448) (modw_id mE _ eq_refl (E_arr H))). Qed.
Lemma E_big : clean448 -> is_big448 (vsub3 (mp16 ypx a) (mp16 ymx s) limbs_2_34P448). Proof. intro H. exact (bounds_le_ok mE big448 _ eq_refl (E_arr H)). Qed.
End Core.
(** ** Values *)
Lemma c34_val : cq (fe448 limbs_2_34P448) 0. Proof. vm_compute. reflexivity. Qed.
Lemma c2_val : cq (fe448 limbs_2P448) 0. Proof. vm_compute. reflexivity. Qed.
