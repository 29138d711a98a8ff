(** Properties C58-C61: the key exchange. *)
From Coq Require Import ZArith Znumtheory List Lia Bool String.
From Verif Require Import GoBase BeMin CbStringProofs FpField GoElliptic Sm3Spec Sm3 Sm3Proofs Sm3Main PropsSm3.
From Verif Require Import Primes Sm2Primes WeiGroup Sm2Group Sm2Order Sm2Spec Sm2 Sm2Proofs Sm2Proofs2 PropsCurve KexSpec KeyExchange KexCert.
Import ListNotations.
Open Scope Z_scope.

(** * C61 *)
Theorem C61_reduce : forall x w, 0 <= w -> reduce x w = 2 ^ w + x mod 2 ^ w.
Proof.
  intros x w Hw. unfold reduce. rewrite Z.shiftl_mul_pow2, Z.mul_1_l by exact Hw.
  replace (2 ^ w - 1) with (Z.ones w) by (rewrite Z.ones_equiv; lia). rewrite Z.land_ones by exact Hw.
  unfold Z.setbit. rewrite Z.shiftl_mul_pow2, Z.mul_1_l by exact Hw.
  pose proof (Z.pow_pos_nonneg 2 w ltac:(lia) Hw) as P. pose proof (Z.mod_pos_bound x (2 ^ w) P) as B.
  assert (L : Z.land (x mod 2 ^ w) (2 ^ w) = 0).
  { apply Z.bits_inj'. intros i Hi. rewrite Z.land_spec, Z.bits_0, Z.pow2_bits_eqb by exact Hw.
    destruct (Z.eqb_spec w i) as [<- |N]; [|apply andb_false_r].
    rewrite Z.mod_pow2_bits_high by lia. reflexivity. }
  rewrite <- Z.lxor_lor by exact L. rewrite <- Z.add_nocarry_lxor by exact L. lia.
Qed.
Theorem C61_exchange_width : forall x, reduce x (Z.quot curveBitSize 2 - 1) = xbar x.
Proof. intro x. change (Z.quot curveBitSize 2 - 1) with 127. apply C61_reduce. lia. Qed.
Example C61_ex : reduce (2 ^ 127 + 2 ^ 200 + 5) 127 = 2 ^ 127 + 5 /\ reduce (-1) 127 = 2 ^ 128 - 1.
Proof. split; vm_compute; reflexivity. Qed.

(** * Hashing *)
Definition minb (x : Z) : list Z := be_min x.

Lemma BigBytes_min : forall x, 0 <= x -> BigBytes x = minb x.
Proof. intros x H. apply BigBytes_ok. exact H. Qed.
Lemma minb_good : forall x, 0 < x < 2 ^ 256 -> good_chunk (minb x) /\ zlen (minb x) <= 32.
Proof.
  intros x H. unfold minb. assert (L : zlen (be_min x) <= 32).
  { apply be_min_len_le; [lia|]. change (256 ^ 32) with (2 ^ 256). lia. }
  split; [|exact L]. split; [apply be_min_bytes|]. split; [|lia].
  intro E. pose proof (be_min_zlen_ge1 x ltac:(lia)) as G. rewrite E in G. discriminate G || (rewrite zlen_nil in G; lia).
Qed.
Lemma minb_0 : minb 0 = []. Proof. reflexivity. Qed.
Lemma hash_good : forall m, good_chunk (sm3_hash m).
Proof.
  intro m. split; [apply sm3_bytes|]. pose proof (sm3_len m) as L. split; [|rewrite L; reflexivity].
  intro E. rewrite E in L. discriminate.
Qed.

(** A hash over chunks that may be empty: panics exactly when one of them is. *)
Lemma hashOf_any : forall d cs, sized d -> Forall (fun c => c = [] \/ good_chunk c) cs -> zlen (List.concat cs) < 2 ^ 61 ->
  (Forall good_chunk cs /\ exists d', hashOf d cs = Ret (d', sm3_hash (List.concat cs)) /\ sized d') \/
  (Exists (fun c => c = []) cs /\ hashOf d cs = Panic PIndex).
Proof.
  intros d cs S F L.
  assert (SP : Forall good_chunk cs \/ exists pre post, cs = pre ++ [] :: post /\ Forall good_chunk pre).
  { clear S L. induction cs as [|c cs IH]; [left; constructor|]. inversion F as [|? ? Hc Hcs]; subst.
    destruct Hc as [-> |Hc]; [right; exists [], cs; split; [reflexivity|constructor]|].
    destruct (IH Hcs) as [G|(pre & post & -> & G)]; [left; constructor; assumption|].
    right. exists (c :: pre), post. split; [reflexivity|]. constructor; assumption. }
  destruct SP as [G|(pre & post & -> & G)].
  - left. split; [exact G|]. apply hashOf_ok; assumption.
  - right. split; [apply Exists_exists; exists []; split; [apply in_elt|reflexivity]|]. apply hashOf_empty; assumption.
Qed.

(** * One party's computation *)

Definition key_octets (keyBits : Z) : nat := Z.to_nat (Z.quot (keyBits + 7) 8).

Lemma addInt_small : forall a b, - 2 ^ 63 <= a + b < 2 ^ 63 -> addInt a b = a + b.
Proof. intros a b H. unfold addInt. rewrite Z.mod_small by lia. lia. Qed.

Lemma kdfExch_ok : forall d ux uy za zb n, sized d -> 0 < ux < 2 ^ 256 -> 0 < uy < 2 ^ 256 ->
  good_chunk za -> good_chunk zb -> zlen za = 32 -> zlen zb = 32 -> -15 < n <= 128 ->
  exists d', kdfForExch d ux uy za zb n = Ret (d', firstn (key_octets n) (sm3_hash (minb ux ++ minb uy ++ za ++ zb ++ be_enc 4 1))) /\ sized d'.
Proof.
  intros d ux uy za zb n Sd Hx Hy Ga Gb La Lb Hn. unfold kdfForExch, BlockSizeMethod.
  change (4 <? BlockSize) with true. change BlockSize with 16. cbv iota.
  rewrite addInt_small by lia. unfold go_make.
  assert (Q : 0 <= Z.quot (n + 7) 8 <= 16).
  { destruct (Z.le_gt_cases 0 (n + 7)) as [H|H].
    - rewrite Z.quot_div_nonneg by lia. split; [apply Z.div_pos; lia|]. apply Zlt_succ_le. apply Z.div_lt_upper_bound; lia.
    - replace (n + 7) with (- (- (n + 7))) by lia. rewrite Z.quot_opp_l by lia. rewrite Z.quot_small by lia. lia. }
  rewrite (proj2 (Z.ltb_ge _ 0)) by lia. cbn [bind]. set (rv := repeat 0 (Z.to_nat (Z.quot (n + 7) 8))).
  assert (Lr : zlen rv = Z.quot (n + 7) 8) by (unfold zlen, rv; rewrite repeat_length; lia).
  fold (key_octets n) in rv.
  destruct (List.length rv) as [|fuel] eqn:EL.
  - exists d. split; [|exact Sd]. cbn [kdfForExch_loop]. assert (E0 : rv = []) by (destruct rv; [reflexivity|discriminate]).
    rewrite E0. cbn. assert (K : key_octets n = 0%nat) by (unfold rv in EL; rewrite repeat_length in EL; exact EL).
    rewrite K. reflexivity.
  - cbn [kdfForExch_loop]. assert (Pz : 0 < zlen rv) by (unfold zlen; lia). rewrite (proj2 (Z.ltb_lt 0 (zlen rv)) Pz).
    rewrite !BigBytes_min by lia. change (u32 (0 + 1)) with 1.
    destruct (minb_good ux Hx) as [Gx Lx]. destruct (minb_good uy Hy) as [Gy Ly].
    destruct (hashOf_ok d [minb ux; minb uy; za; zb; be_enc 4 1] Sd) as (d' & E & S').
    { repeat (constructor; [assumption|]). constructor; [|constructor].
      split; [apply be_enc_bytes|]. split; [discriminate|reflexivity]. }
    { cbn [List.concat]. rewrite !zlen_app, zlen_nil, zlen_be_enc. lia. }
    rewrite E. cbn [bind]. cbn [List.concat]. rewrite app_nil_r. set (h := sm3_hash _).
    assert (Lh : zlen h = 32) by apply sm3_len.
    rewrite go_slice_ret by lia. cbn [bind]. rewrite Z.sub_0_r, Z.add_0_l.
    rewrite go_slice_ret by lia. cbn [bind].
    assert (L16 : zlen (sub h 0 16) = 16) by (rewrite sub_length by lia; reflexivity).
    rewrite go_slice_ret by lia. cbn [bind]. rewrite sub_sub by lia. rewrite !Z.add_0_l.
    assert (LS : zlen (sub h 0 (zlen rv)) = zlen rv) by (rewrite sub_length by lia; lia).
    assert (E1 : sub rv 0 0 = []) by reflexivity.
    assert (E2 : sub rv (zlen rv) (zlen rv) = []) by (unfold sub; rewrite Z.sub_diag; reflexivity).
    rewrite E1, E2, app_nil_r. cbn [app].
    assert (EK : sub h 0 (zlen rv) = firstn (key_octets n) h).
    { unfold sub. rewrite Z.sub_0_r. cbn [Z.to_nat skipn]. unfold zlen, rv. rewrite repeat_length, Nat2Z.id. reflexivity. }
    destruct fuel; cbn [kdfForExch_loop]; rewrite LS, Z.ltb_irrefl, EK; exists d'; split; auto.
Qed.
Lemma kdfExch_sized : forall d ux uy za zb n, sized d -> 0 <= ux < 2 ^ 256 -> 0 <= uy < 2 ^ 256 ->
  good_chunk za -> good_chunk zb -> zlen za = 32 -> zlen zb = 32 -> - 2 ^ 63 <= n < 2 ^ 63 -> ~ (-15 < n <= 128) ->
  exists p, kdfForExch d ux uy za zb n = Panic p.
Proof.
  intros d ux uy za zb n Sd Hx Hy Ga Gb La Lb Rn Hn. unfold kdfForExch, BlockSizeMethod.
  change (4 <? BlockSize) with true. change BlockSize with 16. cbv iota. unfold go_make.
  destruct (Z.ltb_spec (Z.quot (addInt n 7) 8) 0) as [Q|Q]; [cbn [bind]; eauto|]. cbn [bind].
  assert (N7 : n + 7 < 2 ^ 63).
  { destruct (Z.lt_ge_cases (n + 7) (2 ^ 63)) as [|G]; [assumption|]. exfalso.
    assert (E : addInt n 7 = n + 7 - 2 ^ 64).
    { unfold addInt. replace (n + 7 + 2 ^ 63) with (n + 7 - 2 ^ 63 + 1 * 2 ^ 64) by lia.
      rewrite Z.mod_add by lia. rewrite Z.mod_small by lia. lia. }
    rewrite E in Q. replace (n + 7 - 2 ^ 64) with (- (2 ^ 64 - n - 7)) in Q by lia. rewrite Z.quot_opp_l in Q by lia.
    rewrite Z.quot_div_nonneg in Q by lia.
    assert (1 <= (2 ^ 64 - n - 7) / 8) by (apply Z.div_le_lower_bound; lia). lia. }
  rewrite addInt_small in * by lia.
  assert (NG : 128 < n).
  { destruct (Z.lt_ge_cases 128 n) as [|G]; [assumption|]. exfalso. assert (n <= -15) by lia.
    replace (n + 7) with (- (- n - 7)) in Q by lia. rewrite Z.quot_opp_l in Q by lia. rewrite Z.quot_div_nonneg in Q by lia.
    assert (1 <= (- n - 7) / 8) by (apply Z.div_le_lower_bound; lia). lia. }
  assert (Q17 : 17 <= Z.quot (n + 7) 8) by (rewrite Z.quot_div_nonneg by lia; apply Z.div_le_lower_bound; lia).
  set (rv := repeat 0 (Z.to_nat (Z.quot (n + 7) 8))).
  assert (Lr : zlen rv = Z.quot (n + 7) 8) by (unfold zlen, rv; rewrite repeat_length; lia).
  destruct (List.length rv) as [|fuel] eqn:EL; [unfold zlen in Lr; lia|].
  cbn [kdfForExch_loop]. rewrite (proj2 (Z.ltb_lt 0 (zlen rv))) by lia. rewrite !BigBytes_min by lia. change (u32 (0 + 1)) with 1.
  assert (MB : forall x, 0 <= x < 2 ^ 256 -> (minb x = [] \/ good_chunk (minb x)) /\ zlen (minb x) <= 32).
  { intros x H. destruct (Z.eq_dec x 0) as [-> |]; [rewrite minb_0, zlen_nil; split; [left; reflexivity|lia]|].
    destruct (minb_good x ltac:(lia)) as [? ?]. auto. }
  destruct (MB ux Hx) as [Gx Lx]. destruct (MB uy Hy) as [Gy Ly].
  destruct (hashOf_any d [minb ux; minb uy; za; zb; be_enc 4 1] Sd) as [(_ & d' & E & S')|[_ E]].
  { constructor; [assumption|]. constructor; [assumption|]. constructor; [right; assumption|]. constructor; [right; assumption|].
    constructor; [|constructor]. right. split; [apply be_enc_bytes|]. split; [discriminate|reflexivity]. }
  { cbn [List.concat]. rewrite !zlen_app, zlen_nil, zlen_be_enc. lia. }
  - rewrite E. cbn [bind]. set (h := sm3_hash _). assert (Lh : zlen h = 32) by apply sm3_len.
    rewrite go_slice_ret by lia. cbn [bind]. rewrite Z.sub_0_r, Z.add_0_l.
    rewrite go_slice_ret by lia. cbn [bind].
    rewrite go_slice_panic; [cbn [bind]; eauto|]. rewrite sub_length by lia. lia.
  - rewrite E. cbn [bind]. eauto.
Qed.

Lemma quot_range : forall n, -15 < n <= 128 -> 0 <= Z.quot (n + 7) 8 <= 16.
Proof.
  intros n Hn. destruct (Z.le_gt_cases 0 (n + 7)) as [H|H].
  - rewrite Z.quot_div_nonneg by lia. split; [apply Z.div_pos; lia|]. apply Zlt_succ_le. apply Z.div_lt_upper_bound; lia.
  - replace (n + 7) with (- (- (n + 7))) by lia. rewrite Z.quot_opp_l by lia. rewrite Z.quot_small by lia. lia.
Qed.
Lemma minb_any : forall x, 0 <= x < 2 ^ 256 -> (minb x = [] \/ good_chunk (minb x)) /\ zlen (minb x) <= 32.
Proof.
  intros x H. destruct (Z.eq_dec x 0) as [-> |]; [rewrite minb_0, zlen_nil; split; [left; reflexivity|lia]|].
  destruct (minb_good x ltac:(lia)) as [? ?]. auto.
Qed.
Lemma kdfExch_any : forall d ux uy za zb n, sized d -> 0 <= ux < 2 ^ 256 -> 0 <= uy < 2 ^ 256 ->
  good_chunk za -> good_chunk zb -> zlen za = 32 -> zlen zb = 32 -> - 2 ^ 63 <= n < 2 ^ 63 ->
  (exists p, kdfForExch d ux uy za zb n = Panic p) /\ ~ (ux <> 0 /\ uy <> 0 /\ -15 < n <= 128) \/
  (exists d' rv, kdfForExch d ux uy za zb n = Ret (d', rv) /\ sized d' /\ -15 < n <= 128 /\
     (ux <> 0 /\ uy <> 0 -> rv = firstn (key_octets n) (sm3_hash (minb ux ++ minb uy ++ za ++ zb ++ be_enc 4 1)))).
Proof.
  intros d ux uy za zb n Sd Hx Hy Ga Gb La Lb Rn.
  assert (RD : -15 < n <= 128 \/ ~ (-15 < n <= 128)) by lia. destruct RD as [Hn|Hn].
  2: { left. split; [apply kdfExch_sized; assumption|]. tauto. }
  destruct (Z.eq_dec ux 0) as [Ex|Nx]; [|destruct (Z.eq_dec uy 0) as [Ey|Ny]].
  3: { right. destruct (kdfExch_ok d ux uy za zb n Sd ltac:(lia) ltac:(lia) Ga Gb La Lb Hn) as (d' & E & S').
       exists d'. eexists. split; [exact E|]. auto. }
  all: assert (EX : Exists (fun c => c = []) [minb ux; minb uy; za; zb; be_enc 4 1]) by
    (subst; rewrite ?minb_0; (apply Exists_cons_hd; reflexivity) || (apply Exists_cons_tl; apply Exists_cons_hd; reflexivity)).
  all: unfold kdfForExch, BlockSizeMethod; change (4 <? BlockSize) with true; change BlockSize with 16; cbv iota;
    rewrite addInt_small by lia; unfold go_make; pose proof (quot_range n Hn) as Q; rewrite (proj2 (Z.ltb_ge _ 0)) by lia; cbn [bind];
    set (rv := repeat 0 (Z.to_nat (Z.quot (n + 7) 8)));
    destruct (List.length rv) as [|fuel] eqn:EL;
    [right; exists d, []; cbn [kdfForExch_loop]; assert (E0 : rv = []) by (destruct rv; [reflexivity|discriminate]);
     rewrite E0; split; [reflexivity|]; split; [exact Sd|]; split; [exact Hn|]; intros [? ?]; contradiction|];
    left; split; [|tauto];
    cbn [kdfForExch_loop]; assert (Pz : 0 < zlen rv) by (unfold zlen; lia); rewrite (proj2 (Z.ltb_lt 0 (zlen rv)) Pz);
    rewrite !BigBytes_min by lia; change (u32 (0 + 1)) with 1;
    destruct (minb_any ux Hx) as [Gx Lx]; destruct (minb_any uy Hy) as [Gy Ly];
    destruct (hashOf_any d [minb ux; minb uy; za; zb; be_enc 4 1] Sd) as [(F & _)|[_ E]];
    [constructor; [assumption|]; constructor; [assumption|]; constructor; [right; assumption|]; constructor; [right; assumption|];
       constructor; [|constructor]; right; split; [apply be_enc_bytes|]; split; [discriminate|reflexivity]
    |cbn [List.concat]; rewrite !zlen_app, zlen_nil, zlen_be_enc; lia
    |exfalso; apply Exists_exists in EX; destruct EX as (c & Hc & ->); rewrite Forall_forall in F; apply F in Hc; destruct Hc as (_ & N & _); apply N; reflexivity
    |rewrite E; cbn [bind]; eauto].
Qed.

Lemma calculateU_ok : forall dS dE P R, 0 <= D dS -> 0 <= D dE -> on_curve P -> on_curve R ->
  calculateU (Z.quot curveBitSize 2 - 1) dS dE (mkPub (xc (pmul (D dE) G)) (yc (pmul (D dE) G))) (mkPub (xc P) (yc P)) (mkPub (xc R) (yc R)) =
  Ret (xc (kex_point (kex_t (D dS) (D dE)) P R), yc (kex_point (kex_t (D dS) (D dE)) P R)).
Proof.
  intros dS dE P R HS HE OP OR. unfold calculateU. cbn [X Y]. rewrite !C61_exchange_width. change sm2H with 1. rewrite Z.mul_1_l.
  rewrite curveN_eq. fold (kex_t (D dS) (D dE)). pose proof sm2n_pos as Np.
  set (t := kex_t (D dS) (D dE)). pose proof (Z.mod_pos_bound t sm2n ltac:(lia)) as B1.
  pose proof (Z.mod_pos_bound (t mod sm2n * xbar (xc R)) sm2n ltac:(lia)) as B2.
  rewrite mult_pt by (auto; lia). cbn [bind]. rewrite mult_pt by (auto; lia). cbn [bind].
  rewrite add_pts by (apply pmul_on; assumption). reflexivity.
Qed.

Lemma inner_any : forall d ux za zb a b a' b', sized d -> 0 <= ux < 2 ^ 256 ->
  good_chunk za -> good_chunk zb -> zlen za = 32 -> zlen zb = 32 ->
  0 <= a < 2 ^ 256 -> 0 <= b < 2 ^ 256 -> 0 <= a' < 2 ^ 256 -> 0 <= b' < 2 ^ 256 ->
  (exists p, calculateInnerHash d ux za zb a b a' b' = Panic p) /\ ~ (ux <> 0 /\ a <> 0 /\ b <> 0 /\ a' <> 0 /\ b' <> 0) \/
  (exists d', calculateInnerHash d ux za zb a b a' b' =
     Ret (d', sm3_hash (minb ux ++ za ++ zb ++ minb a ++ minb b ++ minb a' ++ minb b')) /\ sized d' /\ ux <> 0 /\ a <> 0 /\ b <> 0 /\ a' <> 0 /\ b' <> 0).
Proof.
  intros d ux za zb a b a' b' Sd Hx Ga Gb La Lb Ha Hb Ha' Hb'. unfold calculateInnerHash. rewrite !BigBytes_min by lia.
  destruct (minb_any ux Hx) as [G1 L1]. destruct (minb_any a Ha) as [G2 L2]. destruct (minb_any b Hb) as [G3 L3].
  destruct (minb_any a' Ha') as [G4 L4]. destruct (minb_any b' Hb') as [G5 L5].
  destruct (hashOf_any d [minb ux; za; zb; minb a; minb b; minb a'; minb b'] Sd) as [(F & d' & E & S')|[EX E]].
  - constructor; [assumption|]. constructor; [right; assumption|]. constructor; [right; assumption|].
    constructor; [assumption|]. constructor; [assumption|]. constructor; [assumption|]. constructor; [assumption|]. constructor.
  - cbn [List.concat]. rewrite !zlen_app, zlen_nil. lia.
  - right. exists d'. rewrite E. cbn [List.concat]. rewrite app_nil_r. split; [reflexivity|]. split; [exact S'|].
    assert (N : forall x, In (minb x) [minb ux; za; zb; minb a; minb b; minb a'; minb b'] -> x <> 0).
    { intros x Hi ->. rewrite Forall_forall in F. apply F in Hi. destruct Hi as (_ & N & _). apply N. reflexivity. }
    repeat split; apply N; cbn [In]; tauto.
  - left. split; [rewrite E; eauto|]. intros (N1 & N2 & N3 & N4 & N5). apply Exists_exists in EX. destruct EX as (c & Hi & ->).
    assert (NE : forall x, 0 <= x < 2 ^ 256 -> x <> 0 -> [] <> minb x).
    { intros x Rx Nx E0. destruct (minb_good x ltac:(lia)) as [(_ & N & _) _]. apply N. symmetry. exact E0. }
    cbn [In] in Hi. destruct Hi as [Hi|[Hi|[Hi|[Hi|[Hi|[Hi|[Hi|[]]]]]]]]; symmetry in Hi; try (apply NE in Hi; auto; fail).
    + rewrite <- Hi in La. discriminate.
    + rewrite <- Hi in Lb. discriminate.
Qed.

Lemma tag_any : forall c d uy h, sized d -> byte c -> 0 <= uy < 2 ^ 256 -> good_chunk h -> zlen h = 32 ->
  (exists p, hashOf d [[c]; BigBytes uy; h] = Panic p) /\ uy = 0 \/
  (exists d', hashOf d [[c]; BigBytes uy; h] = Ret (d', sm3_hash ([c] ++ minb uy ++ h)) /\ sized d' /\ uy <> 0).
Proof.
  intros c d uy h Sd Bc Hu Gh Lh. rewrite BigBytes_min by lia.
  assert (Gc : good_chunk [c]) by (split; [repeat constructor; exact Bc || apply Bc|split; [discriminate|reflexivity]]).
  destruct (Z.eq_dec uy 0) as [-> |N].
  - left. split; [|reflexivity]. rewrite minb_0. change [[c]; []; h] with ([[c]] ++ [] :: [h]). rewrite (hashOf_empty d [[c]] [h]); [eauto|exact Sd|constructor; [exact Gc|constructor]].
  - right. destruct (minb_good uy ltac:(lia)) as [Gu Lu].
    destruct (hashOf_ok d [[c]; minb uy; h] Sd) as (d' & E & S').
    { repeat (constructor; [assumption|]). constructor. }
    { cbn [List.concat]. rewrite !zlen_app, zlen_nil, zlen_cons, zlen_nil. lia. }
    exists d'. rewrite E. cbn [List.concat]. rewrite app_nil_r. split; [reflexivity|]. split; [exact S'|exact N].
Qed.

(** What one call computes, for either role. *)
Lemma party : forall (init : bool) n tag dS dE idS idO P R,
  0 <= D dS -> 0 <= D dE -> on_curve P -> on_curve R ->
  bytes (contentsOf idS) -> zlen (contentsOf idS) < 2 ^ 31 -> bytes (contentsOf idO) -> zlen (contentsOf idO) < 2 ^ 31 ->
  - 2 ^ 63 <= n < 2 ^ 63 -> init && isNil tag = false ->
  let U := kex_point (kex_t (D dS) (D dE)) P R in
  let RS := pmul (D dE) G in
  let ZS := ZA (contentsOf idS) (xc (pmul (D dS) G)) (yc (pmul (D dS) G)) in
  let ZO := ZA (contentsOf idO) (xc P) (yc P) in
  let Z1 := if init then ZS else ZO in let Z2 := if init then ZO else ZS in
  let R1 := if init then RS else R in let R2 := if init then R else RS in
  let key := kex_key minb U Z1 Z2 (key_octets n) in
  let t1 := kex_tag minb 2 U Z1 Z2 R1 R2 in let t2 := kex_tag minb 3 U Z1 Z2 R1 R2 in
  let call := CalculateKeyWithConfirmation init n tag dS dE idS (mkPub (xc P) (yc P)) (mkPub (xc R) (yc R)) idO in
  (kex_nonzero U R1 R2 -> -15 < n <= 128 ->
     call = Ret (if init then (if list_eq_dec Z.eq_dec t1 (contentsOf tag) then OK (mkExch key None t2) else ERR "confirmation tag mismatch")
                 else OK (mkExch key (Some t1) t2))) /\
  (~ (kex_nonzero U R1 R2 /\ -15 < n <= 128) -> exists p, call = Panic p).
Proof.
  intros init n tag dS dE idS idO P R HS HE OP OR B1 L1 B2 L2 Rn NT U RS ZS ZO Z1 Z2 R1 R2 key t1 t2 call.
  assert (C : call =
    (do (d, za) <- getZ New (xc (pmul (D dS) G)) (yc (pmul (D dS) G)) (contentsOf idS);
     do (d, zb) <- getZ d (xc P) (yc P) (contentsOf idO);
     if init then
      do (d, rv) <- kdfForExch d (xc U) (yc U) za zb n;
      do (d, innerHash) <- calculateInnerHash d (xc U) za zb (xc RS) (yc RS) (xc R) (yc R);
      do (d, t1) <- s1 d (yc U) innerHash;
      if list_eq_dec Z.eq_dec t1 (contentsOf tag) then
        do (d, t2) <- s2 d (yc U) innerHash;
        Ret (OK (mkExch rv None t2))
      else Ret (ERR "confirmation tag mismatch")
    else
      do (d, rv) <- kdfForExch d (xc U) (yc U) zb za n;
      do (d, innerHash) <- calculateInnerHash d (xc U) zb za (xc R) (yc R) (xc RS) (yc RS);
      do (d, t1) <- s1 d (yc U) innerHash;
      do (d, t2) <- s2 d (yc U) innerHash;
      Ret (OK (mkExch rv (Some t1) t2)))).
  { unfold call, CalculateKeyWithConfirmation. rewrite NT. cbv zeta. unfold CalculatePubKey. rewrite !base_mult_z by assumption.
    cbn [bind X Y]. destruct (getZ New _ _ _) as [[d za]|p]; [|reflexivity]. cbn [bind].
    destruct (getZ d _ _ _) as [[d' zb]|p]; [|reflexivity]. cbn [bind]. fold RS. unfold RS. rewrite calculateU_ok by assumption. reflexivity. }
  clearbody call. subst call.
  destruct (getZ_ok New (xc (pmul (D dS) G)) (yc (pmul (D dS) G)) (contentsOf idS) sized_New (xc_range _) (yc_range _) B1 L1) as (d1 & E1 & S1).
  rewrite E1. cbn [bind]. fold ZS. clear E1.
  destruct (getZ_ok d1 (xc P) (yc P) (contentsOf idO) S1 (xc_range _) (yc_range _) B2 L2) as (d2 & E2 & S2).
  rewrite E2. cbn [bind]. fold ZO. clear E2.
  assert (GS : good_chunk ZS) by apply hash_good. assert (GO : good_chunk ZO) by apply hash_good.
  assert (LS : zlen ZS = 32) by apply sm3_len. assert (LO : zlen ZO = 32) by apply sm3_len.
  assert (G1 : good_chunk Z1) by (unfold Z1; destruct init; assumption). assert (G2 : good_chunk Z2) by (unfold Z2; destruct init; assumption).
  assert (LL1 : zlen Z1 = 32) by (unfold Z1; destruct init; assumption). assert (LL2 : zlen Z2 = 32) by (unfold Z2; destruct init; assumption).
  (* the common part *)
  set (common := do (d, rv) <- kdfForExch d2 (xc U) (yc U) Z1 Z2 n;
                 do (d, ih) <- calculateInnerHash d (xc U) Z1 Z2 (xc R1) (yc R1) (xc R2) (yc R2);
                 do (d, a) <- s1 d (yc U) ih; Ret (d, rv, ih, a)).
  assert (CM : (exists p, common = Panic p) /\ ~ (kex_nonzero U R1 R2 /\ -15 < n <= 128) \/
               exists d, sized d /\ kex_nonzero U R1 R2 /\ -15 < n <= 128 /\
                 common = Ret (d, key, sm3_hash (minb (xc U) ++ Z1 ++ Z2 ++ minb (xc R1) ++ minb (yc R1) ++ minb (xc R2) ++ minb (yc R2)), t1)).
  { unfold common, kex_nonzero.
    destruct (kdfExch_any d2 (xc U) (yc U) Z1 Z2 n S2 (xc_range U) (yc_range U) G1 G2 LL1 LL2 Rn) as [[[p ->] N]|(d3 & rv & -> & S3 & Hn & HV)];
      [left; cbn [bind]; split; [eauto|tauto]|]. cbn [bind].
    destruct (inner_any d3 (xc U) Z1 Z2 (xc R1) (yc R1) (xc R2) (yc R2) S3 (xc_range _) G1 G2 LL1 LL2 (xc_range _) (yc_range _) (xc_range _) (yc_range _))
      as [[[p ->] N]|(d4 & -> & S4 & N1 & N2 & N3 & N4 & N5)]; [left; cbn [bind]; split; [eauto|tauto]|]. cbn [bind].
    unfold s1.
    destruct (tag_any 2 d4 (yc U) (sm3_hash (minb (xc U) ++ Z1 ++ Z2 ++ minb (xc R1) ++ minb (yc R1) ++ minb (xc R2) ++ minb (yc R2)))
                S4 ltac:(unfold byte; lia) (yc_range _) (hash_good _) (sm3_len _)) as [[[p ->] N]|(d5 & -> & S5 & N6)];
      [left; cbn [bind]; split; [eauto|tauto]|].
    right. exists d5. split; [exact S5|]. split; [tauto|]. split; [exact Hn|]. cbn [bind]. unfold key, kex_key, t1, kex_tag. rewrite HV by tauto. reflexivity. }
  assert (FIN : forall d ih, sized d -> kex_nonzero U R1 R2 -> good_chunk ih -> zlen ih = 32 ->
            exists d', s2 d (yc U) ih = Ret (d', sm3_hash ([3] ++ minb (yc U) ++ ih))).
  { intros d ih Sd NZ Gi Li. unfold s2. destruct (tag_any 3 d (yc U) ih Sd ltac:(unfold byte; lia) (yc_range _) Gi Li) as [[_ N]|(d' & E & _)]; [|eauto].
    exfalso. destruct NZ as (_ & NZ & _). exact (NZ N). }
  set (ihv := sm3_hash (minb (xc U) ++ Z1 ++ Z2 ++ minb (xc R1) ++ minb (yc R1) ++ minb (xc R2) ++ minb (yc R2))) in *.
  match goal with |- (_ -> _ -> ?c = _) /\ _ => set (code := c) end.
  assert (EC : code = do q <- common;
     (let '(d, rv, ih, a) := q in if init then if list_eq_dec Z.eq_dec a (contentsOf tag) then do (d, t2) <- s2 d (yc U) ih; Ret (OK (mkExch rv None t2))
                   else Ret (ERR "confirmation tag mismatch")
      else do (d, t2) <- s2 d (yc U) ih; Ret (OK (mkExch rv (Some a) t2)))).
  { unfold code, common, Z1, Z2, R1, R2. destruct init.
    - destruct (kdfForExch d2 (xc U) (yc U) ZS ZO n) as [[d3 rv]|p]; [|reflexivity]. cbn [bind].
      destruct (calculateInnerHash d3 (xc U) ZS ZO (xc RS) (yc RS) (xc R) (yc R)) as [[d4 ih]|p]; [|reflexivity]. cbn [bind].
      destruct (s1 d4 (yc U) ih) as [[d5 a]|p]; reflexivity.
    - destruct (kdfForExch d2 (xc U) (yc U) ZO ZS n) as [[d3 rv]|p]; [|reflexivity]. cbn [bind].
      destruct (calculateInnerHash d3 (xc U) ZO ZS (xc R) (yc R) (xc RS) (yc RS)) as [[d4 ih]|p]; [|reflexivity]. cbn [bind].
      destruct (s1 d4 (yc U) ih) as [[d5 a]|p]; reflexivity. }
  rewrite EC. clear EC code. destruct CM as [[[p E] N]|(d & Sd & NZ & Hn & E)].
  - rewrite E. cbn [bind]. split; [intros A B; exfalso; apply N; auto|eauto].
  - rewrite E. cbn [bind]. split; [intros _ _|intro N; exfalso; apply N; auto].
    destruct (FIN d ihv Sd NZ (hash_good _) (sm3_len _)) as (d' & E2). rewrite E2. cbn [bind].
    unfold t2, kex_tag. fold ihv. destruct init; [destruct (list_eq_dec _ _ _); reflexivity|reflexivity].
Qed.

(** * C60: what a call computes *)

Definition good_opt (id : option (list Z)) : Prop := bytes (contentsOf id) /\ zlen (contentsOf id) < 2 ^ 31.

Lemma valid_pub : forall pub, valid (X pub, Y pub) -> exists P, on_curve P /\ dec (X pub) (Y pub) = P /\ pub = mkPub (xc P) (yc P).
Proof.
  intros [x y] V. cbn [X Y] in *. destruct (valid_on x y V) as [On E]. exists (dec x y). split; [exact On|]. split; [reflexivity|].
  unfold xc, yc. rewrite E. reflexivity.
Qed.

(** Every call with valid points, not refused for a nil tag: the exact result. *)
Theorem C60_exact : forall (init : bool) n tag dS dE idS idO P R,
  0 <= D dS -> 0 <= D dE -> valid (X P, Y P) -> valid (X R, Y R) -> good_opt idS -> good_opt idO ->
  - 2 ^ 63 <= n < 2 ^ 63 -> init && isNil tag = false ->
  let RS := pmul (D dE) G in let RO := dec (X R) (Y R) in
  let U := kex_point (kex_t (D dS) (D dE)) (dec (X P) (Y P)) RO in
  let ZS := ZA (contentsOf idS) (xc (pmul (D dS) G)) (yc (pmul (D dS) G)) in
  let ZO := ZA (contentsOf idO) (X P) (Y P) in
  let Z1 := if init then ZS else ZO in let Z2 := if init then ZO else ZS in
  let R1 := if init then RS else RO in let R2 := if init then RO else RS in
  let key := kex_key be_min U Z1 Z2 (Z.to_nat (Z.quot (n + 7) 8)) in
  let t1 := kex_tag be_min 2 U Z1 Z2 R1 R2 in let t2 := kex_tag be_min 3 U Z1 Z2 R1 R2 in
  let call := CalculateKeyWithConfirmation init n tag dS dE idS P R idO in
  (kex_nonzero U R1 R2 /\ -15 < n <= 128 ->
     call = Ret (if init then (if list_eq_dec Z.eq_dec t1 (contentsOf tag) then OK (mkExch key None t2) else ERR "confirmation tag mismatch")
                 else OK (mkExch key (Some t1) t2))) /\
  (~ (kex_nonzero U R1 R2 /\ -15 < n <= 128) -> exists p, call = Panic p).
Proof.
  intros init n tag dS dE idS idO P R HS HE VP VR [B1 L1] [B2 L2] Rn NT.
  destruct (valid_pub P VP) as (P' & OP & -> & ->). destruct (valid_pub R VR) as (R' & OR & -> & ->). cbn [X Y].
  pose proof (party init n tag dS dE idS idO P' R' HS HE OP OR B1 L1 B2 L2 Rn NT) as (H1 & H2). cbv zeta in *.
  split; [intros [A B]; exact (H1 A B)|exact H2].
Qed.

(** Keys of more than 128 bits: the call never returns. *)
Theorem C60_long_keys_panic : forall init n tag dS dE idS idO P R,
  0 <= D dS -> 0 <= D dE -> valid (X P, Y P) -> valid (X R, Y R) -> good_opt idS -> good_opt idO ->
  128 < n < 2 ^ 63 -> init && isNil tag = false ->
  exists p, CalculateKeyWithConfirmation init n tag dS dE idS P R idO = Panic p.
Proof.
  intros init n tag dS dE idS idO P R HS HE VP VR G1 G2 Rn NT.
  destruct (C60_exact init n tag dS dE idS idO P R HS HE VP VR G1 G2 ltac:(lia) NT) as [_ H]. apply H. lia.
Qed.
(** At most 16 bytes, and exactly the rounded-up number of bits for lengths from 0 to 128. *)
Theorem C60_key_length : forall init n tag dS dE idS idO P R r,
  0 <= D dS -> 0 <= D dE -> valid (X P, Y P) -> valid (X R, Y R) -> good_opt idS -> good_opt idO ->
  - 2 ^ 63 <= n < 2 ^ 63 -> CalculateKeyWithConfirmation init n tag dS dE idS P R idO = Ret (OK r) ->
  zlen (exKey r) = Z.max 0 ((n + 7) / 8) /\ -15 < n <= 128.
Proof.
  intros init n tag dS dE idS idO P R r HS HE VP VR G1 G2 Rn E.
  assert (NT : init && isNil tag = false).
  { destruct (init && isNil tag) eqn:NT; [|reflexivity]. unfold CalculateKeyWithConfirmation in E. rewrite NT in E. discriminate. }
  destruct (C60_exact init n tag dS dE idS idO P R HS HE VP VR G1 G2 Rn NT) as [H1 H2].
  assert (DN : -15 < n <= 128 \/ ~ (-15 < n <= 128)) by lia.
  destruct DN as [Hn|Hn]; [|destruct H2 as [p H2]; [tauto|rewrite H2 in E; discriminate]].
  assert (LK : forall m, zlen (firstn (Z.to_nat (Z.quot (n + 7) 8)) (sm3_hash m)) = Z.max 0 ((n + 7) / 8)).
  { intro m. unfold zlen. rewrite firstn_length, sm3_length. pose proof (quot_range n Hn) as Q.
    destruct (Z.le_gt_cases 0 (n + 7)) as [H|H].
    - rewrite Z.quot_div_nonneg in * by lia. lia.
    - replace (n + 7) with (- (- (n + 7))) in * by lia. rewrite Z.quot_opp_l in * by lia. rewrite (Z.quot_small (- (n + 7))) in * by lia.
      rewrite Z.opp_involutive. assert ((n + 7) / 8 < 0) by (apply Z.div_lt_upper_bound; lia). lia. }
  split; [|exact Hn].
  set (RO := dec (X R) (Y R)) in *. set (U := kex_point _ _ _) in *. cbv zeta in H1, H2.
  match type of H1 with kex_nonzero U ?a ?b /\ _ -> _ => set (R1 := a) in *; set (R2 := b) in * end.
  assert (NZ : kex_nonzero U R1 R2 \/ ~ kex_nonzero U R1 R2) by (unfold kex_nonzero; lia).
  destruct NZ as [NZ|NZ]; [|destruct H2 as [p H2]; [tauto|rewrite H2 in E; discriminate]].
  rewrite (H1 (conj NZ Hn)) in E. destruct init.
  - destruct (list_eq_dec _ _ _); [|discriminate]. apply (f_equal (fun x => match x with Ret (OK q) => exKey q | _ => [] end)) in E.
    cbn [exKey] in E. rewrite <- E. apply LK.
  - apply (f_equal (fun x => match x with Ret (OK q) => exKey q | _ => [] end)) in E. cbn [exKey] in E. rewrite <- E. apply LK.
Qed.

(** * C59: the initiator's check *)

Theorem C59_nil_tag_refused : forall n dS dE idS P R idO,
  CalculateKeyWithConfirmation true n None dS dE idS P R idO = Ret (ERR "if initiating, confirmationTag must be set").
Proof. reflexivity. Qed.

(** For all keys, points (valid or not), ids and lengths: either the call panics whatever the tag, or exactly one tag
    is accepted, always with the same result, and all others give the mismatch error. *)
Theorem C59_one_tag : forall n dS dE idS P R idO,
  (exists p, forall tag, CalculateKeyWithConfirmation true n (Some tag) dS dE idS P R idO = Panic p) \/
  (exists good r, forall tag, CalculateKeyWithConfirmation true n (Some tag) dS dE idS P R idO =
     if list_eq_dec Z.eq_dec tag good then Ret r else Ret (ERR "confirmation tag mismatch")) \/
  (exists good p, forall tag, CalculateKeyWithConfirmation true n (Some tag) dS dE idS P R idO =
     if list_eq_dec Z.eq_dec tag good then Panic p else Ret (ERR "confirmation tag mismatch")).
Proof.
  intros n dS dE idS P R idO. unfold CalculateKeyWithConfirmation. cbn [andb isNil contentsOf]. cbv zeta.
  destruct (CalculatePubKey dS) as [ps|p]; [|left; exists p; reflexivity]. cbn [bind].
  destruct (getZ New _ _ _) as [[d1 za]|p]; [|left; exists p; reflexivity]. cbn [bind].
  destruct (getZ d1 _ _ _) as [[d2 zb]|p]; [|left; exists p; reflexivity]. cbn [bind].
  destruct (CalculatePubKey dE) as [pe|p]; [|left; exists p; reflexivity]. cbn [bind].
  destruct (calculateU _ _ _ _ _ _) as [[ux uy]|p]; [|left; exists p; reflexivity]. cbn [bind].
  destruct (kdfForExch _ _ _ _ _ _) as [[d3 rv]|p]; [|left; exists p; reflexivity]. cbn [bind].
  destruct (calculateInnerHash _ _ _ _ _ _ _ _) as [[d4 ih]|p]; [|left; exists p; reflexivity]. cbn [bind].
  destruct (s1 _ _ _) as [[d5 a]|p]; [|left; exists p; reflexivity]. cbn [bind]. right.
  destruct (s2 _ _ _) as [[d6 c]|p]; [left; exists a, (OK (mkExch rv None c))|right; exists a, p];
    intro tag; cbn [bind]; destruct (list_eq_dec Z.eq_dec a tag); destruct (list_eq_dec Z.eq_dec tag a); congruence.
Qed.
Theorem C59_other_tags_rejected : forall n dS dE idS P R idO good r tag,
  CalculateKeyWithConfirmation true n (Some good) dS dE idS P R idO = Ret (OK r) -> tag <> good ->
  CalculateKeyWithConfirmation true n (Some tag) dS dE idS P R idO = Ret (ERR "confirmation tag mismatch").
Proof.
  intros n dS dE idS P R idO good r tag E N.
  destruct (C59_one_tag n dS dE idS P R idO) as [(p & H)|[(g & r' & H)|(g & p & H)]]; rewrite H in *; [discriminate| |].
  - destruct (list_eq_dec Z.eq_dec good g) as [<- |]; [|discriminate]. destruct (list_eq_dec Z.eq_dec tag good); [contradiction|reflexivity].
  - destruct (list_eq_dec Z.eq_dec good g); discriminate.
Qed.
(** The responder never gets an error: there is a result or a panic, for all inputs. *)
Theorem C59_responder_never_errs : forall n tag dS dE idS P R idO e,
  CalculateKeyWithConfirmation false n tag dS dE idS P R idO <> Ret (ERR e).
Proof.
  intros n tag dS dE idS P R idO e. unfold CalculateKeyWithConfirmation. cbn [andb]. cbv zeta.
  destruct (CalculatePubKey dS) as [ps|p]; [|discriminate]. cbn [bind].
  destruct (getZ New _ _ _) as [[d1 za]|p]; [|discriminate]. cbn [bind].
  destruct (getZ d1 _ _ _) as [[d2 zb]|p]; [|discriminate]. cbn [bind].
  destruct (CalculatePubKey dE) as [pe|p]; [|discriminate]. cbn [bind].
  destruct (calculateU _ _ _ _ _ _) as [[ux uy]|p]; [|discriminate]. cbn [bind].
  destruct (kdfForExch _ _ _ _ _ _) as [[d3 rv]|p]; [|discriminate]. cbn [bind].
  destruct (calculateInnerHash _ _ _ _ _ _ _ _) as [[d4 ih]|p]; [|discriminate]. cbn [bind].
  destruct (s1 _ _ _) as [[d5 a]|p]; [|discriminate]. cbn [bind].
  destruct (s2 _ _ _) as [[d6 c]|p]; discriminate.
Qed.

(** * C58: agreement *)

Lemma kex_shared : forall dA rA dB rB, 0 <= dA -> 0 <= rA -> 0 <= dB -> 0 <= rB ->
  kex_point (kex_t dA rA) (pmul dB G) (pmul rB G) = pmul (kex_t dA rA * kex_t dB rB) G.
Proof.
  intros dA rA dB rB A1 A2 B1 B2. unfold kex_point. set (t := kex_t dA rA). set (x := xbar (xc (pmul rB G))).
  assert (XP : forall v, 0 <= xbar v) by (intro v; unfold xbar; pose proof (Z.mod_pos_bound v (2 ^ 127) ltac:(lia)); lia).
  pose proof (XP (xc (pmul rB G))) as Xp. fold x in Xp.
  pose proof sm2n_pos as Np. pose proof (Z.mod_pos_bound t sm2n ltac:(lia)) as T1.
  pose proof (Z.mod_pos_bound (t mod sm2n * x) sm2n ltac:(lia)) as T2.
  assert (Tp : 0 <= t) by (unfold t, kex_t; pose proof (XP (xc (pmul rA G))); nia).
  assert (Tb : 0 <= kex_t dB rB) by (unfold kex_t; pose proof (XP (xc (pmul rB G))); nia).
  rewrite <- (pmul_mul (t mod sm2n) dB G G_on) by lia.
  rewrite <- (pmul_mul ((t mod sm2n * x) mod sm2n) rB G G_on) by lia.
  rewrite <- (pmul_add _ _ G G_on) by nia.
  apply (pmul_cong sm2n); [exact G_on|lia|nia|nia|exact G_order|].
  unfold kex_t. fold x.
  rewrite Z.add_mod, (Z.mul_mod ((t mod sm2n * x) mod sm2n)), Z.mod_mod, <- (Z.mul_mod (t mod sm2n * x)) by lia.
  rewrite <- Z.add_mod by lia. replace (t mod sm2n * dB + t mod sm2n * x * rB) with (t mod sm2n * (dB + x * rB)) by lia.
  rewrite Z.mul_mod, Z.mod_mod, <- Z.mul_mod by lia. reflexivity.
Qed.

Lemma pub_of_priv : forall priv pub, 0 <= D priv -> CalculatePubKey priv = Ret pub -> pub = mkPub (xc (pmul (D priv) G)) (yc (pmul (D priv) G)).
Proof.
  intros priv pub H E. unfold CalculatePubKey in E. rewrite base_mult_z in E by exact H. cbn [bind] in E.
  apply (f_equal (fun x => match x with Ret q => q | _ => mkPub 0 0 end)) in E. cbv beta iota in E. congruence.
Qed.

Theorem C58_both_sides_agree : forall n tag dA rA dB rB PA RA PB RB idA idB resB,
  0 <= D dA -> 0 <= D rA -> 0 <= D dB -> 0 <= D rB -> good_opt idA -> good_opt idB -> - 2 ^ 63 <= n < 2 ^ 63 ->
  CalculatePubKey dA = Ret PA -> CalculatePubKey rA = Ret RA -> CalculatePubKey dB = Ret PB -> CalculatePubKey rB = Ret RB ->
  CalculateKeyWithConfirmation false n tag dB rB idB PA RA idA = Ret (OK resB) ->
  exists t resA, exS1 resB = Some t /\
    CalculateKeyWithConfirmation true n (Some t) dA rA idA PB RB idB = Ret (OK resA) /\
    exKey resA = exKey resB /\ zlen (exKey resB) = Z.max 0 ((n + 7) / 8) /\ exS1 resA = None /\
    ResponderConfirm (exS2 resB) (exS2 resA) = true.
Proof.
  intros n tag dA rA dB rB PA RA PB RB idA idB resB HA HrA HB HrB GA GB Rn EA EB EC ED E.
  apply pub_of_priv in EA, EB, EC, ED; try assumption. subst PA RA PB RB.
  assert (VP : forall k, valid (xc (pmul k G), yc (pmul k G))).
  { intro k. rewrite <- enc_xy. apply on_valid. apply pmul_on, G_on. }
  pose proof (C60_key_length false n tag dB rB idB idA (mkPub (xc (pmul (D dA) G)) (yc (pmul (D dA) G)))
    (mkPub (xc (pmul (D rA) G)) (yc (pmul (D rA) G))) resB HB HrB (VP (D dA)) (VP (D rA)) GB GA Rn E) as [LK Hn].
  destruct GA as [BA LA]. destruct GB as [BB LB].
  destruct (party false n tag dB rB idB idA (pmul (D dA) G) (pmul (D rA) G) HB HrB (pmul_on _ _ G_on) (pmul_on _ _ G_on) BB LB BA LA Rn eq_refl) as [H1 H2].
  cbv zeta iota in H1, H2. rewrite kex_shared in H1, H2 by assumption.
  assert (C : kex_t (D dB) (D rB) * kex_t (D dA) (D rA) = kex_t (D dA) (D rA) * kex_t (D dB) (D rB)) by apply Z.mul_comm.
  rewrite C in H1, H2. clear C.
  set (U := pmul (kex_t (D dA) (D rA) * kex_t (D dB) (D rB)) G) in *.
  assert (NZ : kex_nonzero U (pmul (D rA) G) (pmul (D rB) G)).
  { assert (DZ : kex_nonzero U (pmul (D rA) G) (pmul (D rB) G) \/ ~ kex_nonzero U (pmul (D rA) G) (pmul (D rB) G)) by (unfold kex_nonzero; lia).
    destruct DZ as [|NZ]; [assumption|]. destruct H2 as [p H2]; [tauto|]. rewrite H2 in E. discriminate. }
  rewrite (H1 NZ Hn) in E. clear H1 H2.
  apply (f_equal (fun x => match x with Ret (OK q) => q | _ => resB end)) in E. cbv beta iota in E. subst resB. cbn [exKey exS1 exS2] in *.
  destruct (party true n (Some (kex_tag minb 2 U (ZA (contentsOf idA) (xc (pmul (D dA) G)) (yc (pmul (D dA) G)))
     (ZA (contentsOf idB) (xc (pmul (D dB) G)) (yc (pmul (D dB) G))) (pmul (D rA) G) (pmul (D rB) G)))
     dA rA idA idB (pmul (D dB) G) (pmul (D rB) G) HA HrA (pmul_on _ _ G_on) (pmul_on _ _ G_on) BA LA BB LB Rn eq_refl) as [H1 _].
  cbv zeta iota in H1. rewrite kex_shared in H1 by assumption. fold U in H1. specialize (H1 NZ Hn). cbn [contentsOf] in H1.
  destruct (list_eq_dec Z.eq_dec _ _) as [_|NE] in H1; [|contradiction NE; reflexivity].
  eexists. eexists. split; [reflexivity|]. split; [exact H1|]. cbn [exKey exS1 exS2].
  split; [reflexivity|]. split; [exact LK|]. split; [reflexivity|].
  unfold ResponderConfirm. destruct (list_eq_dec _ _ _) as [|NE]; [reflexivity|contradiction NE; reflexivity].
Qed.

(** ResponderConfirm is equality. *)
Theorem C58_confirm_is_equality : forall a b, ResponderConfirm a b = true <-> a = b.
Proof. intros a b. unfold ResponderConfirm. destruct (list_eq_dec Z.eq_dec a b); split; congruence. Qed.

(** * C74: leading zero bytes *)

Lemma min_is_b32 : forall x, 2 ^ 248 <= x < 2 ^ 256 -> be_min x = b32 x.
Proof.
  intros x H. pose proof (be_enc_pad 32 x ltac:(change (256 ^ Z.of_nat 32) with (2 ^ 256); lia)) as (L & E).
  unfold b32. rewrite E. assert (L2 : zlen (be_min x) = 32).
  { change (Z.of_nat 32) with 32 in L. pose proof (be_dec_bound (be_min x) (be_min_bytes x)) as B. rewrite be_dec_min in B by lia.
    assert (P : 0 <= zlen (be_min x)) by apply zlen_nonneg.
    destruct (Z.le_gt_cases 32 (zlen (be_min x))) as [|G1]; [lia|].
    assert (256 ^ zlen (be_min x) <= 256 ^ 31) by (apply Z.pow_le_mono_r; lia). change (256 ^ 31) with (2 ^ 248) in *. lia. }
  rewrite L2. reflexivity.
Qed.

(** When the six coordinates have no leading zero byte, the results are the standard's, which hashes 32-byte coordinates. *)
Theorem C74_standard_without_leading_zeros : forall n dS dE idS idO P R,
  0 <= D dS -> 0 <= D dE -> valid (X P, Y P) -> valid (X R, Y R) -> good_opt idS -> good_opt idO -> -15 < n <= 128 ->
  let RS := pmul (D dE) G in let RO := dec (X R) (Y R) in
  let U := kex_point (kex_t (D dS) (D dE)) (dec (X P) (Y P)) RO in
  let ZS := ZA (contentsOf idS) (xc (pmul (D dS) G)) (yc (pmul (D dS) G)) in
  let ZO := ZA (contentsOf idO) (X P) (Y P) in
  (forall c, In c [xc U; yc U; xc RS; yc RS; xc RO; yc RO] -> 2 ^ 248 <= c) ->
  CalculateKeyWithConfirmation false n None dS dE idS P R idO =
    Ret (OK (mkExch (kex_key b32 U ZO ZS (Z.to_nat (Z.quot (n + 7) 8))) (Some (kex_tag b32 2 U ZO ZS RO RS)) (kex_tag b32 3 U ZO ZS RO RS))) /\
  CalculateKeyWithConfirmation true n (Some (kex_tag b32 2 U ZS ZO RS RO)) dS dE idS P R idO =
    Ret (OK (mkExch (kex_key b32 U ZS ZO (Z.to_nat (Z.quot (n + 7) 8))) None (kex_tag b32 3 U ZS ZO RS RO))).
Proof.
  intros n dS dE idS idO P R HS HE VP VR G1 G2 Hn RS RO U ZS ZO Big.
  assert (BG : forall Q, 2 ^ 248 <= xc Q -> 2 ^ 248 <= yc Q -> be_min (xc Q) = b32 (xc Q) /\ be_min (yc Q) = b32 (yc Q)).
  { intros Q H1 H2. pose proof (xc_range Q). pose proof (yc_range Q). split; apply min_is_b32; lia. }
  pose proof (Big (xc U) ltac:(cbn [In]; tauto)) as B1. pose proof (Big (yc U) ltac:(cbn [In]; tauto)) as B2.
  pose proof (Big (xc RS) ltac:(cbn [In]; tauto)) as B3. pose proof (Big (yc RS) ltac:(cbn [In]; tauto)) as B4.
  pose proof (Big (xc RO) ltac:(cbn [In]; tauto)) as B5. pose proof (Big (yc RO) ltac:(cbn [In]; tauto)) as B6.
  destruct (BG U B1 B2) as [M1 M2]. destruct (BG RS B3 B4) as [M3 M4]. destruct (BG RO B5 B6) as [M5 M6].
  assert (EK : forall z1 z2 k, kex_key be_min U z1 z2 k = kex_key b32 U z1 z2 k) by (intros; unfold kex_key; rewrite M1, M2; reflexivity).
  assert (ET1 : forall c z1 z2, kex_tag be_min c U z1 z2 RO RS = kex_tag b32 c U z1 z2 RO RS) by (intros; unfold kex_tag; rewrite M1, M2, M3, M4, M5, M6; reflexivity).
  assert (ET2 : forall c z1 z2, kex_tag be_min c U z1 z2 RS RO = kex_tag b32 c U z1 z2 RS RO) by (intros; unfold kex_tag; rewrite M1, M2, M3, M4, M5, M6; reflexivity).
  split.
  - destruct (C60_exact false n None dS dE idS idO P R HS HE VP VR G1 G2 ltac:(lia) eq_refl) as [H _]. cbv zeta iota in H.
    fold RS RO in H. fold U in H. fold ZS ZO in H. rewrite H by (unfold kex_nonzero; repeat split; lia). rewrite EK, !ET1. reflexivity.
  - destruct (C60_exact true n (Some (kex_tag b32 2 U ZS ZO RS RO)) dS dE idS idO P R HS HE VP VR G1 G2 ltac:(lia) eq_refl) as [H _]. cbv zeta iota in H.
    fold RS RO in H. fold U in H. fold ZS ZO in H. rewrite H by (unfold kex_nonzero; repeat split; lia). rewrite EK, !ET2. cbn [contentsOf]. clear H.
    destruct (list_eq_dec _ _ _) as [_|NE]; [reflexivity|contradiction NE; reflexivity].
Qed.

(** * Examples: static scalars 1, ephemeral scalars lz_k = 327 and 1 *)
Definition exA_r : PrivateKey := mkPriv lz_k.
Definition ex1 : PrivateKey := mkPriv 1.
Definition ex_RA : PublicKey := mkPub lz_x lz_y.
Definition ex_G : PublicKey := mkPub curveGx curveGy.

Lemma G_xc : xc G = sm2gx /\ yc G = sm2gy. Proof. split; vm_compute; reflexivity. Qed.
Lemma ex_shared : kex_point (kex_t 1 1) (pmul 1 G) (pmul lz_k G) = pmul us_k G.
Proof.
  rewrite kex_shared by (try lia; vm_compute; discriminate). apply (pmul_cong sm2n); [exact G_on|reflexivity| | |exact G_order|].
  - unfold kex_t. rewrite pmul_1, (proj1 G_xc), (proj1 (proj2 lz_pt)). vm_compute. discriminate.
  - vm_compute. discriminate.
  - unfold kex_t. rewrite pmul_1, (proj1 G_xc), (proj1 (proj2 lz_pt)). vm_compute. reflexivity.
Qed.
Lemma ex_pubs : CalculatePubKey ex1 = Ret ex_G /\ CalculatePubKey exA_r = Ret ex_RA.
Proof.
  unfold CalculatePubKey, ex1, exA_r, ex_G, ex_RA. cbn [D]. rewrite !base_mult_z by (vm_compute; discriminate). cbn [bind].
  rewrite pmul_1, (proj1 G_xc), (proj2 G_xc), (proj1 (proj2 lz_pt)), (proj2 (proj2 lz_pt)), curveGx_eq, curveGy_eq. split; reflexivity.
Qed.

(** The responder's result in the example. *)
Definition ex_ZG : list Z := ZA [] sm2gx sm2gy.
Definition ex_inner (co : Z -> list Z) : list Z :=
  sm3_hash (co us_x ++ ex_ZG ++ ex_ZG ++ co lz_x ++ co lz_y ++ co sm2gx ++ co sm2gy).
Definition ex_key (co : Z -> list Z) (n : nat) : list Z := firstn n (sm3_hash (co us_x ++ co us_y ++ ex_ZG ++ ex_ZG ++ be_enc 4 1)).
Definition ex_tag (co : Z -> list Z) (c : Z) : list Z := sm3_hash ([c] ++ co us_y ++ ex_inner co).

Lemma ex_tag_eq : forall co c, kex_tag co c (kex_point (kex_t 1 1) (pmul 1 G) (pmul lz_k G)) ex_ZG ex_ZG (pmul lz_k G) (pmul 1 G) = ex_tag co c.
Proof.
  intros co c. rewrite ex_shared. unfold kex_tag, ex_tag, ex_inner. rewrite pmul_1.
  rewrite (proj1 G_xc), (proj2 G_xc), (proj1 (proj2 lz_pt)), (proj2 (proj2 lz_pt)), (proj1 (proj2 us_pt)), (proj2 (proj2 us_pt)). reflexivity.
Qed.
Lemma ex_key_eq : forall co n, kex_key co (kex_point (kex_t 1 1) (pmul 1 G) (pmul lz_k G)) ex_ZG ex_ZG n = ex_key co n.
Proof. intros co n. rewrite ex_shared. unfold kex_key, ex_key. rewrite (proj1 (proj2 us_pt)), (proj2 (proj2 us_pt)). reflexivity. Qed.
Lemma ex_nonzero : kex_nonzero (kex_point (kex_t 1 1) (pmul 1 G) (pmul lz_k G)) (pmul lz_k G) (pmul 1 G).
Proof.
  rewrite ex_shared, pmul_1. unfold kex_nonzero.
  rewrite (proj1 G_xc), (proj2 G_xc), (proj1 (proj2 lz_pt)), (proj2 (proj2 lz_pt)), (proj1 (proj2 us_pt)), (proj2 (proj2 us_pt)).
  repeat split; discriminate.
Qed.
Lemma ex_responder : CalculateKeyWithConfirmation false 128 None ex1 ex1 None ex_G ex_RA None =
  Ret (OK (mkExch (ex_key be_min 16) (Some (ex_tag be_min 2)) (ex_tag be_min 3))).
Proof.
  assert (EG : mkPub (xc (pmul 1 G)) (yc (pmul 1 G)) = ex_G) by (rewrite pmul_1, (proj1 G_xc), (proj2 G_xc); unfold ex_G; rewrite curveGx_eq, curveGy_eq; reflexivity).
  assert (ER : mkPub (xc (pmul lz_k G)) (yc (pmul lz_k G)) = ex_RA) by (rewrite (proj1 (proj2 lz_pt)), (proj2 (proj2 lz_pt)); reflexivity).
  assert (EZ : ZA [] (xc (pmul 1 G)) (yc (pmul 1 G)) = ex_ZG) by (rewrite pmul_1, (proj1 G_xc), (proj2 G_xc); reflexivity).
  assert (P1 : 0 <= D ex1) by (cbn [D ex1]; lia).
  assert (NB : bytes (contentsOf None)) by constructor. assert (NL : zlen (contentsOf None) < 2 ^ 31) by reflexivity.
  destruct (party false 128 None ex1 ex1 None None (pmul 1 G) (pmul lz_k G) P1 P1 (pmul_on _ _ G_on) (pmul_on _ _ G_on) NB NL NB NL ltac:(lia) eq_refl) as [H _].
  cbv zeta iota in H. cbn [D ex1 contentsOf] in H. rewrite EZ, EG, ER in H.
  rewrite (H ex_nonzero ltac:(lia)). rewrite !ex_tag_eq, ex_key_eq. reflexivity.
Qed.

Example C58_ex : exists resB, CalculateKeyWithConfirmation false 128 None ex1 ex1 None ex_G ex_RA None = Ret (OK resB) /\
  CalculatePubKey ex1 = Ret ex_G /\ CalculatePubKey exA_r = Ret ex_RA /\
  exists resA, CalculateKeyWithConfirmation true 128 (exS1 resB) ex1 exA_r None ex_G ex_G None = Ret (OK resA) /\ exKey resA = exKey resB.
Proof.
  eexists. split; [exact ex_responder|]. split; [apply ex_pubs|]. split; [apply ex_pubs|].
  assert (NG : good_opt None) by (split; [constructor|reflexivity]).
  destruct (C58_both_sides_agree 128 None ex1 exA_r ex1 ex1 ex_G ex_RA ex_G ex_G None None _ ltac:(cbn [D ex1]; lia) ltac:(vm_compute; discriminate)
    ltac:(cbn [D ex1]; lia) ltac:(cbn [D ex1]; lia) NG NG ltac:(lia) (proj1 ex_pubs) (proj2 ex_pubs) (proj1 ex_pubs) (proj1 ex_pubs) ex_responder)
    as (t & resA & E1 & E2 & E3 & _).
  rewrite E1. eauto.
Qed.
(** The standard's tag for the same exchange is another one. *)
Theorem C74_standard_tags_refuted : exists dS dE P R idS idO r,
  1 <= D dS < curveN /\ 1 <= D dE < curveN /\ valid (X P, Y P) /\ valid (X R, Y R) /\ good_opt idS /\ good_opt idO /\
  CalculateKeyWithConfirmation false 128 None dS dE idS P R idO = Ret (OK r) /\
  exS1 r <> Some (kex_tag b32 2 (kex_point (kex_t (D dS) (D dE)) (dec (X P) (Y P)) (dec (X R) (Y R)))
                    (ZA (contentsOf idO) (X P) (Y P)) (ZA (contentsOf idS) (xc (pmul (D dS) G)) (yc (pmul (D dS) G)))
                    (dec (X R) (Y R)) (pmul (D dE) G)).
Proof.
  exists ex1, ex1, ex_G, ex_RA, None, None. eexists.
  split; [vm_compute; split; [discriminate|reflexivity]|]. split; [vm_compute; split; [discriminate|reflexivity]|].
  assert (VG : valid (xc (pmul 1 G), yc (pmul 1 G))) by (rewrite <- enc_xy; apply on_valid, pmul_on, G_on).
  assert (VR : valid (xc (pmul lz_k G), yc (pmul lz_k G))) by (rewrite <- enc_xy; apply on_valid, pmul_on, G_on).
  assert (DG : dec (X ex_G) (Y ex_G) = pmul 1 G).
  { rewrite <- (dec_coords (pmul 1 G)) by (apply pmul_on, G_on). rewrite pmul_1, (proj1 G_xc), (proj2 G_xc).
    unfold ex_G. cbn [X Y]. rewrite curveGx_eq, curveGy_eq. reflexivity. }
  assert (DR : dec (X ex_RA) (Y ex_RA) = pmul lz_k G).
  { rewrite <- (dec_coords (pmul lz_k G)) by (apply pmul_on, G_on). rewrite (proj1 (proj2 lz_pt)), (proj2 (proj2 lz_pt)). reflexivity. }
  rewrite pmul_1, (proj1 G_xc), (proj2 G_xc) in VG. rewrite (proj1 (proj2 lz_pt)), (proj2 (proj2 lz_pt)) in VR.
  split; [unfold ex_G; cbn [X Y]; rewrite curveGx_eq, curveGy_eq; exact VG|]. split; [exact VR|].
  split; [split; [constructor|reflexivity]|]. split; [split; [constructor|reflexivity]|].
  split; [exact ex_responder|]. cbn [exS1]. rewrite DG, DR. cbn [D ex1 contentsOf].
  assert (Z1 : ZA [] (X ex_G) (Y ex_G) = ex_ZG) by (unfold ex_G, ex_ZG; cbn [X Y]; rewrite curveGx_eq, curveGy_eq; reflexivity).
  assert (Z2 : ZA [] (xc (pmul 1 G)) (yc (pmul 1 G)) = ex_ZG) by (rewrite pmul_1, (proj1 G_xc), (proj2 G_xc); reflexivity).
  rewrite Z1, Z2, ex_tag_eq. intro E. apply (f_equal (fun o => match o with Some l => hd 0 l | None => 0 end)) in E. cbv beta iota in E.
  revert E. vm_compute. discriminate.
Qed.
Example C74_ex : be_min lz_x <> b32 lz_x /\ 2 ^ 248 <= us_x /\ 2 ^ 248 <= us_y.
Proof. split; [vm_compute; discriminate|]. split; vm_compute; discriminate. Qed.
Example C59_ex : exists good r, CalculateKeyWithConfirmation true 128 (Some good) ex1 exA_r None ex_G ex_G None = Ret (OK r) /\
  CalculateKeyWithConfirmation true 128 (Some (0 :: good)) ex1 exA_r None ex_G ex_G None = Ret (ERR "confirmation tag mismatch").
Proof.
  destruct C58_ex as (resB & _ & _ & _ & resA & EA & _). destruct (exS1 resB) as [good|]; [|rewrite C59_nil_tag_refused in EA; discriminate].
  exists good, resA. split; [exact EA|]. apply (C59_other_tags_rejected 128 ex1 exA_r None ex_G ex_G None good resA _ EA).
  intro E. apply (f_equal (@List.length Z)) in E. cbn [List.length] in E. lia.
Qed.

(** * C75: a point with x = 0 *)

(** The point (0, root_b) is a valid public key; a peer presenting it as ephemeral key makes every call panic. *)
Theorem C75_zero_x_ephemeral_panics : exists R, valid (X R, Y R) /\ IsOnCurve curveP curveB (X R) (Y R) = true /\
  forall init n tag dS dE idS idO P, 0 <= D dS -> 0 <= D dE -> valid (X P, Y P) -> good_opt idS -> good_opt idO ->
    - 2 ^ 63 <= n < 2 ^ 63 -> init && isNil tag = false ->
    exists p, CalculateKeyWithConfirmation init n tag dS dE idS P R idO = Panic p.
Proof.
  assert (V : valid (0, root_b)).
  { right. split; [vm_compute; split; [discriminate|reflexivity]|]. split; [vm_compute; split; [discriminate|reflexivity]|]. vm_compute. reflexivity. }
  exists (mkPub 0 root_b). cbn [X Y]. split; [exact V|]. split; [vm_compute; reflexivity|].
  intros init n tag dS dE idS idO P HS HE VP G1 G2 Rn NT.
  destruct (C60_exact init n tag dS dE idS idO P (mkPub 0 root_b) HS HE VP V G1 G2 Rn NT) as [_ H]. apply H. clear H. cbn [X Y].
  intros [(_ & _ & N1 & _ & N2 & _) _].
  assert (E0 : xc (dec 0 root_b) = 0) by (unfold xc; destruct (valid_on 0 root_b V) as [_ ->]; reflexivity).
  destruct init; [exact (N2 E0)|exact (N1 E0)].
Qed.
Example C75_ex : valid (curveGx, curveGy) /\ good_opt (Some [1; 2; 3]).
Proof. split; [right; split; [|split]; vm_compute; try split; try discriminate; reflexivity|split; [repeat constructor; unfold byte; lia|reflexivity]]. Qed.
Example C60_ex : zlen (ex_key be_min 16) = 16.
Proof. unfold ex_key. unfold zlen. rewrite firstn_length, sm3_length. reflexivity. Qed.
